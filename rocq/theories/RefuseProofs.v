(** Error messages and refused runs *)
From Verif Require Import Sys SysProofs SpecRun SpecCmd Instance ArgProofs FaultProofs CodecProofs.
From Verif Require Import SpecRefuse.
From Verif Require Import Spec.

(** ** Complaints are true *)
Lemma first_bad_Some l n : first_bad l = Some n -> ~ name_ok n /\ n ∈ l.
Proof.
  unfold first_bad. intros H. assert (n ∈ filter (fun n => is_valid_name n = false) l) as Hn.
  { destruct (filter _ l); inv H. by left. }
  apply elem_of_list_filter in Hn as [Hv Hl]. split; [|done]. rewrite <- valid_name_iff. congruence.
Qed.
Lemma o2l_elem {A} (o : option A) n : n ∈ o2l o -> o = Some n.
Proof. destruct o; simpl; [rewrite elem_of_list_singleton; congruence|by intros H%elem_of_nil]. Qed.
Lemma chk_Some a b e : chk a b = Some e -> a = Some e \/ a = None /\ b = Some e.
Proof. destruct a; simpl; auto. Qed.
Lemma bad_Some {B} (f : bytes -> B) l e : f <$> first_bad l = Some e -> exists n, e = f n /\ ~ name_ok n /\ n ∈ l.
Proof. destruct (first_bad l) as [n|] eqn:E; intros H; [|done]. cbn in H. inv H. exists n. by split; [|apply first_bad_Some]. Qed.

Lemma verify_args_true g e : verify_args g = Some e -> at_fault g e.
Proof.
  unfold verify_args. intros H.
  apply chk_Some in H as [H|[_ H]].
  { destruct (aarea g) eqn:Ea, (invert g) eqn:Ei; cbn in H; inv H. done. }
  apply chk_Some in H as [H|[_ H]].
  { destruct (aarea g) as [a|] eqn:Ea; [|done].
    destruct (is_valid_node_pos (amin a)) eqn:E1; cbn in H; [destruct (is_valid_node_pos (amax a)) eqn:E2; cbn in H; [done|]|];
      inv H; (exists a; split; [done|]; split; [by auto|]); rewrite <- valid_node_iff; congruence. }
  apply chk_Some in H as [H|[_ H]].
  { destruct (offset g) as [o|] eqn:Eo; [|done].
    destruct (huge (vx o) || huge (vy o) || huge (vz o)) eqn:E1; inv H. exists o. split; [done|].
    unfold huge, within, MAP_LIMIT in *. lia. }
  repeat (apply chk_Some in H as [H|[_ H]];
    [apply bad_Some in H as (n & -> & Hn & Hl); (split; [done|]); rewrite ?(o2l_elem _ _ Hl); by auto|]).
  apply bad_Some in H as (n & -> & Hn & Hl); (split; [done|]); rewrite ?(o2l_elem _ _ Hl); by auto.
Qed.
Lemma cmd_verify_true g e : supplied g -> verify_args g = None -> cmd_verify g = Ret (AError e) -> at_fault g e.
Proof.
  intros [Hne Hs] Hv H. apply verify_args_iff in Hv as (_ & Ha & Ho & _). unfold cmd_verify in H.
  assert (forall c e1, Ret (if c : bool then AError e1 else AOk) = Ret (AError e) -> c = true /\ e = e1) as Hif.
  { intros [] e1 H'; by inv H'. }
  destruct (acmd g) eqn:Ec; try done.
  - (* clone *)
    destruct (aarea g) as [a|] eqn:Ea; [|done]. destruct (offset g) as [o|] eqn:Eo; [|done]. simpl in H.
    apply Hif in H as [H ->]. split; [by auto|]. rewrite Ea, Eo. simpl.
    rewrite <- dest_in_map_iff; [by rewrite H|by apply Hne|by apply Ha|by apply Ho].
  - destruct (is_none _ && is_none _); done.
  - apply Hif in H as [H ->]. split; [done|]. destruct (aobject g), (aitems g); naive_solver.
  - apply Hif in H as [H ->]. apply bool_decide_eq_true in H. done.
  - (* replaceininv *)
    destruct (is_none (new_item g) && negb (adelete g) && negb (delete_meta g)) eqn:E1.
    { inv H. split; [done|]. destruct (new_item g), (adelete g), (delete_meta g); done. }
    destruct (negb (is_none (new_item g)) && adelete g) eqn:E2.
    { inv H. split; [done|]. destruct (new_item g), (adelete g); naive_solver. }
    apply Hif in H as [H ->]. apply andb_true_iff in H as [H1 H2]. apply bool_decide_eq_true in H1.
    split; [done|]. split; [done|]. by destruct (delete_meta g).
  - (* overlay *)
    destruct (invert g && _) eqn:E1.
    { inv H. split; [done|]. apply andb_true_iff in E1 as [E1 E2]. split; [done|].
      destruct (offset g) as [o|]; [|done]. exists o. split; [done|]. intros ->. done. }
    cbn zeta in H. apply Hif in H as [H ->]. split; [by auto|].
    change (Area (V3 (-31000) (-31000) (-31000)) (V3 31000 31000 31000)) with map_area.
    rewrite <- dest_in_map_iff; [by rewrite H| | |].
    + destruct (aarea g) as [a|]; simpl; [by apply Hne|]. unfold nonempty; simpl. unfold MAP_LIMIT. lia.
    + destruct (aarea g) as [a|]; simpl; [by apply Ha|]. unfold area_within, within; simpl. unfold MAP_LIMIT. lia.
    + destruct (offset g) as [o|]; simpl; [by apply Ho|]. unfold within; simpl. lia.
  - (* setmetavar *)
    destruct (is_none (avalue g) && negb (adelete g)) eqn:E1.
    { inv H. split; [done|]. destruct (avalue g), (adelete g); done. }
    destruct (negb (is_none (avalue g)) && adelete g) eqn:E2.
    { inv H. split; [done|]. destruct (avalue g), (adelete g); naive_solver. }
    apply Hif in H as [H ->]. by apply bool_decide_eq_true in H.
  - apply Hif in H as [H ->]. split; [done|]. destruct (aarea g), (anode g); done.
Qed.

(** ** Opening *)
Lemma opens_iff W p : opens W p <-> is_Some (keep (can_open W) (find_map W p)).
Proof.
  unfold opens, find_map. split.
  - intros (f & Hf & Hp & Ho). destruct Hp as [->|[Hp ->]].
    + rewrite Hf. simpl. rewrite Ho. by eexists.
    + rewrite Hp, Hf. simpl. rewrite Ho. by eexists.
  - intros [f Hf]. destruct (is_file W p) eqn:Ep.
    + simpl in Hf. destruct (can_open W p) eqn:Eo; [|done]. exists p. auto.
    + destruct (is_file W (path_join p (bstr "map.sqlite"))) eqn:Ej; [|done]. cbn in Hf.
      destruct (can_open W _) eqn:Eo; [|done]. eexists. split; [exact Ej|]. auto.
Qed.
Lemma found_iff W p : map_found W p <-> exists f, keep (can_open W) (find_map W p) = Some f /\ valid_map W f = true.
Proof.
  unfold map_found, find_map. split.
  - intros (f & Hf & Hp & Ho & Hv). exists f. split; [|done]. destruct Hp as [->|[Hp ->]].
    + rewrite Hf. simpl. by rewrite Ho.
    + rewrite Hp, Hf. simpl. by rewrite Ho.
  - intros (f & Hf & Hv). destruct (is_file W p) eqn:Ep.
    + simpl in Hf. destruct (can_open W p) eqn:Eo; inv Hf. exists f. auto.
    + destruct (is_file W (path_join p (bstr "map.sqlite"))) eqn:Ej; [|done]. cbn in Hf.
      destruct (can_open W _) eqn:Eo; inv Hf. eexists. split; [exact Ej|]. auto.
Qed.

(** A connection that nothing has been done with *)
Definition idle (w : which) (s : sys) : Prop := work (cn (get_db w s)) = None.
(** Nothing is logged and nothing written while maps are opened *)
Definition calm_start (main : mapdata) (s : sys) : Prop := trace s = [] /\ disk (cn (db s)) = main.
(** The transaction that the flag promises is there. *)
Definition synced (W : world) (s : sys) : Prop := no_faults W -> in_tr (db s) = true -> is_Some (work (cn (db s))).

Lemma open_cases W main w p e1 e2 s : calm_start main s -> synced W s -> idle w s ->
  match open_db w p e1 e2 W s with
  | (Done None, s') => calm_start main s' /\ synced W s' /\ map_found W p /\
      forall w', w' <> w -> get_db w' s' = get_db w' s
  | (Done (Some e), s') => calm_start main s' /\
      (e = e1 /\ ~ opens W p \/ e = e2 /\ opens W p /\ (~ map_found W p \/ trouble W))
  | (Panicked, _) => False
  | (Killed, s') => calm_start main s' /\ trouble W
  end.
Proof.
  intros Hs Hy Hi. unfold idle in Hi. unfold open_db, open_map, ask. unfold mbind at 1, M_bind at 1.
  destruct (keep (can_open W) (find_map W p)) as [f|] eqn:Ef.
  2: { unfold mret, M_ret. split; [done|]. left. split; [done|]. rewrite opens_iff, Ef. by intros []. }
  assert (opens W p) as Ho by (rewrite opens_iff, Ef; by eexists).
  assert (faults W (ticks s) <> FOk \/ faults W (S (ticks s)) <> FOk -> trouble W) as Ht.
  { intros H Hn. destruct H as [H|H]; apply H, Hn. }
  assert (map_found W p <-> valid_map W f = true) as Hm.
  { rewrite found_iff. split; [intros (f' & Hf & Hv); congruence|]. intros Hv. by exists f. }
  unfold mbind at 1, M_bind at 1. unfold mbind at 1, M_bind at 1. unfold db_new.
  unfold mbind at 1, M_bind at 1. unfold exec at 1.
  destruct (faults W (ticks s)) eqn:Et1.
  2: { unfold mret, M_ret. split; [destruct rollback, w; exact Hs|]. right. do 2 (split; [done|]). right. apply Ht. by left. }
  2: { split; [|apply Ht; by left]. destruct (st_begin _) as [[? c']|] eqn:Eb; [|exact Hs].
    unfold st_begin in Eb. rewrite Hi in Eb. inv Eb. destruct after, w; exact Hs. }
  unfold st_begin at 1. rewrite Hi. unfold mbind at 1, M_bind at 1. unfold exec at 1.
  set (s1 := put_conn w _ (tick s)).
  assert (ticks s1 = S (ticks s)) as Et by (by destruct w). rewrite Et.
  assert (calm_start main s1) as Hs1 by (destruct w; exact Hs).
  destruct (faults W (S (ticks s))) eqn:Et2.
  - unfold st_read at 1. destruct (valid_map W f) eqn:Ev.
    + cbn. split; [destruct w; exact Hs|]. split.
      { intros Hn. destruct w; cbn; [by eexists|]. by apply Hy. }
      split; [by apply Hm|]. intros w' Hw. by destruct w, w'.
    + cbn. split; [destruct w; exact Hs|]. right. do 2 (split; [done|]). left. rewrite Hm. congruence.
  - unfold mret, M_ret. split; [destruct rollback, w; exact Hs|]. right. do 2 (split; [done|]). right. apply Ht. by right.
  - split; [|apply Ht; by right]. unfold st_read. destruct after, w; exact Hs.
Qed.

(** ** Commands log no errors of this kind and keep the flag right *)
Definition polite (s : sys) : Prop := forall lt e, TLog lt (MErr e) ∉ trace s.
Definition decent (W : world) (s : sys) : Prop := polite s /\ synced W s.
Definition nice {A} (m : M A) : Prop := forall W, hoare W (decent W) m (fun _ => decent W) polite.
Lemma ni_ret {A} (a : A) : nice (mret a). Proof. intros W. by apply h_ret. Qed.
Lemma ni_bind {A B} (m : M A) (f : A -> M B) : nice m -> (forall a, nice (f a)) -> nice (m ≫= f).
Proof. intros Hm Hf W. eapply h_bind; [apply Hm|]. intros a. apply Hf. Qed.
Lemma ni_panic {A} : nice (@panic A). Proof. by intros W s [? ?]. Qed.
Lemma ni_ask {A} (f : world -> A) : nice (ask f). Proof. by intros W s [? ?]. Qed.
Lemma ni_gets {A} (f : sys -> A) : nice (gets f). Proof. by intros W s [? ?]. Qed.
Lemma ni_rows m : nice (row_order m). Proof. by intros W s [? ?]. Qed.
Lemma ni_lift {A} (o : out A) : nice (lift o). Proof. destruct o; [apply ni_ret|apply ni_panic]. Qed.
Lemma ni_unwrapD {A} (r : dres A) : nice (unwrapD r). Proof. destruct r; [apply ni_ret|apply ni_panic]. Qed.
Lemma ni_fold {A B} (f : A -> B -> M A) l : (forall a x, nice (f a x)) -> forall a, nice (foldM f l a).
Proof. intros H. induction l as [|x l IH]; intros a; simpl; [apply ni_ret|]. apply ni_bind; auto. Qed.
(** Statements that do not end the transaction *)
Definition lasting {A} (f : conn -> option (A * conn)) : Prop :=
  forall c a c', f c = Some (a, c') -> is_Some (work c) -> is_Some (work c').
Lemma ni_exec {A} w (f : conn -> option (A * conn)) : lasting f -> nice (exec w f).
Proof.
  intros Hf W s [Hp Hs]. unfold exec. destruct (faults W (ticks s)) as [|rb|af] eqn:Ef.
  - destruct (f _) as [[a c']|] eqn:E; [|done]. split; [by destruct w|]. intros Hn Hi. specialize (Hs Hn).
    destruct w; cbn in *; [|by apply Hs]. eapply Hf; [exact E|]. by apply Hs.
  - split; [by destruct rb, w|]. intros Hn. by rewrite Hn in Ef.
  - destruct (f _) as [[a c']|]; [|done]. by destruct af, w.
Qed.
Lemma la_read {A} (h : mapdata -> A) : lasting (st_read h). Proof. intros c a c' H. by inv H. Qed.
Lemma la_begin : lasting st_begin. Proof. intros c a c' H [x Hx]. unfold st_begin in H. by rewrite Hx in H. Qed.
Lemma la_write g : lasting (st_write g). Proof. intros c a c' H [x Hx]. unfold st_write in H. rewrite Hx in H. inv H. by eexists. Qed.
Lemma la_vac : lasting st_vacuum. Proof. intros c a c' H [x Hx]. unfold st_vacuum in H. by rewrite Hx in H. Qed.
Lemma la_write' w g : lasting (match w with Main => st_write g | Input => fun _ => None end).
Proof. destruct w; [apply la_write|]. by intros c a c' H. Qed.
Lemma polite_snoc s t e : trace t = trace s ++ [e] -> polite s -> (forall lt x, e <> TLog lt (MErr x)) -> polite t.
Proof.
  intros Ht Hs He lt x. rewrite Ht, not_elem_of_app. split; [apply Hs|]. rewrite elem_of_list_singleton. intros H. by apply (He lt x).
Qed.
Lemma ni_send e : (forall lt x, e <> TLog lt (MErr x)) -> nice (send e).
Proof. intros He W s [Hp Hs]. cbn. split; [|exact Hs]. by eapply polite_snoc. Qed.
Lemma ni_put f : nice (put_status f).
Proof. intros W s [Hp Hs]. cbn. split; [|exact Hs]. by eapply polite_snoc. Qed.

(** COMMIT: with no faults it works *)
Lemma h_commit_nice W : hoare W (decent W) (commit_if_needed Main)
  (fun r s => decent W s /\ forall e, r = DErr e -> trouble W) polite.
Proof.
  intros s [Hp Hs]. unfold commit_if_needed, is_in_transaction, gets. unfold mbind at 1, M_bind at 1. cbn [get_db].
  destruct (in_tr (db s)) eqn:Ei; [|done].
  unfold stmt, exec, mbind, M_bind, mret, M_ret, modify. cbn [get_db].
  destruct (faults W (ticks s)) as [|rb|af] eqn:Ef.
  - unfold st_commit. destruct (work (cn (db s))) eqn:Ew.
    + cbn. split; [|done]. by split.
    + cbn. split; [by split|]. intros _ _ Hn. destruct (Hs Hn Ei) as [x Hx]. congruence.
  - assert (trouble W) as Ht by (intros Hn; by rewrite Hn in Ef).
    destruct rb; cbn; (split; [split; [done|intros Hn; by destruct (Ht Hn)]|done]).
  - destruct (st_commit _) as [[? c']|]; [|done]. by destruct af.
Qed.
Lemma ni_commit : nice (commit_if_needed Main).
Proof. intros W. eapply h_post; [apply h_commit_nice|]. by intros r s [? ?]. Qed.

Create HintDb nice.
Ltac ni :=
  repeat first
    [ solve [auto with nice nocore]
    | apply ni_ret | apply ni_panic | apply ni_lift | apply ni_put
    | apply ni_exec; first [apply la_read|apply la_begin|apply la_vac|apply la_write']
    | apply ni_unwrapD | apply ni_gets | apply ni_ask | apply ni_rows | apply ni_commit
    | apply ni_send; discriminate
    | apply ni_bind; [|intros ?] | apply ni_fold; intros ? ?
    | progress unfold log, stmt, is_in_transaction, exec_write, unwrapM, begin_editing, end_editing, set_state, set_total, inc_done, inc_failed, set_show_progress
    | match goal with |- nice (match ?x with _ => _ end) => destruct x end
    | match goal with |- nice (if ?x then _ else _) => destruct x end ].
Lemma ni_begin w : nice (begin_if_needed w). Proof. unfold begin_if_needed. ni. Qed.
Global Hint Resolve ni_begin : nice.
Lemma ni_get w k : nice (get_block w k). Proof. unfold get_block. ni. Qed.
Lemma ni_set w k d : nice (set_block w k d). Proof. unfold set_block. ni. Qed.
Lemma ni_delete w k : nice (delete_block w k). Proof. unfold delete_block. ni. Qed.
Lemma ni_next w : nice (next_row w). Proof. unfold next_row. ni. Qed.
Global Hint Resolve ni_get ni_set ni_delete ni_next : nice.
Lemma ni_query w names a inv_ partial : nice (query_keys w names a inv_ partial).
Proof. unfold query_keys, iter_rows, query_step. ni. Qed.
Lemma ni_cached E w c key : nice (get_cached E w c key). Proof. unfold get_cached. ni. Qed.
Global Hint Resolve ni_query ni_cached : nice.
Lemma ni_copy_from E w part ofs pos dst c : nice (copy_from E w part ofs pos dst c).
Proof. unfold copy_from, copy_step. ni. Qed.
Lemma ni_clean_write E key b : nice (clean_write E key b). Proof. unfold clean_write. ni. Qed.
Lemma ni_copy_whole E key : nice (copy_whole E key). Proof. unfold copy_whole. ni. Qed.
Lemma ni_edit_blocks late names a inv_ partial body : nice (edit_blocks late names a inv_ partial body).
Proof. unfold edit_blocks, edit_block. ni. Qed.
Global Hint Resolve ni_copy_from ni_clean_write ni_copy_whole ni_edit_blocks : nice.
Lemma ni_cmd E g : nice (cmd_func E g).
Proof.
  unfold cmd_func, clone, clone_step, delete_blocks, delete_step, delete_metadata, delete_objects, delete_timers, fill,
    replace_nodes, replace_in_inv, overlay, overlay_no_offset, overlay_step, overlay_part, overlay_with_offset, offset_step,
    set_meta_var, set_param2, vacuum, db_vacuum. ni.
Qed.

Lemma h_finish_nice W : hoare W (decent W) finish
  (fun r s => polite s /\ forall e, r = Some e -> e = ECommit /\ trouble W) polite.
Proof.
  unfold finish. eapply h_bind; [apply ni_gets|]. intros fails. cbn beta.
  eapply h_bind with (Q1 := fun _ => decent W); [assert (nice (if 0 <? fails then log LInfo (MSkipped fails) else mret tt)) as Hni by ni; apply Hni|]. intros ?. cbn beta.
  eapply h_bind with (Q1 := fun _ => decent W); [assert (nice (is_in_transaction Main)) as Hni by ni; apply Hni|]. intros f. cbn beta.
  eapply h_bind with (Q1 := fun r s => (forall e, r = Some e -> e = ECommit /\ trouble W) /\ decent W s).
  - destruct f; [|by apply h_ret]. eapply h_bind with (Q1 := fun _ => decent W); [assert (nice (log LInfo MCommitting)) as Hni by ni; apply Hni|].
    intros ?. cbn beta. eapply h_bind; [apply h_commit_nice|]. intros r. cbn beta. apply h_ret. intros s [Hs Hr].
    split; [|done]. intros e He. destruct r as [|e']; inv He. split; [done|]. by eapply Hr.
  - intros r. cbn beta. apply h_pre. intros Hr. destruct r as [e|].
    + apply h_ret. intros s [Hs _]. by split.
    + eapply h_bind with (Q1 := fun _ => decent W); [assert (nice (log LInfo MDone)) as Hni by ni; apply Hni|].
      intros ?. cbn beta. apply h_ret. by intros s [Hs _].
Qed.
Lemma h_consent_nice W g w : (forall e, w <> Some (MErr e)) -> hoare W (decent W) (consent g w)
  (fun ok s => (ok = true -> do_confirmation g = true -> answer W = true) /\ decent W s) polite.
Proof.
  intros Hw. unfold consent. eapply h_bind with (Q1 := fun _ => decent W).
  { assert (nice (if do_confirmation g then log LWarning MDanger else mret tt)) as Hni by ni. apply Hni. }
  intros ?. cbn beta. eapply h_bind with (Q1 := fun _ => decent W).
  { destruct w as [m|]; [|by apply h_ret]. apply ni_send. intros lt x H. inv H. by apply (Hw x). }
  intros ?. cbn beta. destruct (do_confirmation g).
  - unfold get_confirmation. eapply h_bind with (Q1 := fun _ => decent W); [by apply ni_send|]. intros ?. cbn beta.
    by intros s Hs.
  - by apply h_ret.
Qed.
Lemma h_run_nice E g w W : (forall e, w <> Some (MErr e)) -> hoare W (decent W) (run_command E g w)
  (fun r s => polite s /\ forall e, r = Some e -> e = ECommit /\ trouble W /\ (do_confirmation g = true -> answer W = true)) polite.
Proof.
  intros Hw. unfold run_command. eapply h_bind; [by apply h_consent_nice|]. intros ok. cbn beta. apply h_pre. intros Ho.
  destruct ok; [|by apply h_ret; intros s [? ?]]. eapply h_bind; [apply ni_cmd|]. intros ?. cbn beta.
  eapply h_post; [apply h_finish_nice|]. intros r s [Hp Hr]. split; [done|]. intros e He. destruct (Hr e He). auto.
Qed.

Lemma refuse_cases E g W main input : supplied g ->
  match compute_thread E g W (start main input) with
  | (Done (Some e), s) => blame W g e /\ (e = ECommit \/ calm_start main s) /\ (hopeless W g -> e <> ECommit) /\ polite s
  | (Done None, s) => ~ hopeless W g /\ polite s
  | (Panicked, s) => ~ hopeless W g /\ polite s
  | (Killed, s) => (~ hopeless W g \/ calm_start main s /\ trouble W) /\ polite s
  end.
Proof.
  intros Hsup. pose proof (legal_iff g Hsup) as Hl.
  assert (calm_start main (start main input)) as H0 by done.
  assert (forall s, calm_start main s -> polite s) as Hpol by (intros s [Ht _] lt e; rewrite Ht; apply not_elem_of_nil).
  assert (forall e, at_fault g e -> ~ legal g ->
    blame W g (EArg e) /\ (EArg e = ECommit \/ calm_start main (start main input)) /\ (hopeless W g -> EArg e <> ECommit) /\ polite (start main input)) as Harg.
  { intros e He Hn. split; [by split|]. split; [by right|]. split; [done|]. by apply Hpol. }
  unfold compute_thread. destruct (verify_args g) as [e|] eqn:Ev.
  { apply Harg; [by apply verify_args_true|]. rewrite Hl. by intros [? ?]. }
  assert (is_Some (match cmd_verify g with Ret v => Some v | Panic => None end)) as [v Hv].
  { destruct Hsup as [_ Hs]. unfold cmd_verify. destruct (acmd g); try (by eexists).
    destruct Hs as [[a ->] [o ->]]. by eexists. }
  destruct (cmd_verify g) as [v'|] eqn:Ec; [|done]. inv Hv.
  unfold lift. unfold mbind at 1, M_bind at 1, mret at 1, M_ret at 1.
  assert ((exists e, v = AError e) \/ forall e, v <> AError e) as [[e ->]|Hne] by (destruct v; eauto).
  { apply Harg; [by apply cmd_verify_true|]. rewrite Hl. intros (_ & v & [= <-] & H). by apply (H e). }
  assert (legal g) as Hleg by (apply Hl; split; [done|]; by exists v).
  assert (forall k : M (option inst_error),
    (match v with AError e => mret (Some (EArg e)) | AOk | AWarning _ => k end) = k) as Hk
    by (intros k; destruct v; [done|done|by edestruct Hne]).
  rewrite Hk. clear Hk.
  unfold mbind at 1, M_bind at 1.
  pose proof (open_cases W main Main (map_path g) EOpenMain EBadMain (start main input) H0) as Hop.
  specialize (Hop ltac:(by intros _) eq_refl).
  destruct (open_db Main _ _ _ W _) as [[[e|]| |] s1]; [| |done|].
  { destruct Hop as [Hc Hop]. assert (e <> ECommit) as Hne' by (by destruct Hop as [[-> _]|[-> _]]).
    split; [by destruct Hop as [[-> ?]|(-> & ? & ?)]|]. split; [by right|]. split; [done|]. by apply Hpol. }
  2: { split; [by right|by apply Hpol, Hop]. }
  destruct Hop as (Hc1 & Hs1 & Hmf & Hother).
  unfold mbind at 1, M_bind at 1. unfold open_input.
  assert (forall s2, decent W s2 -> (forall p, input_map_path g = Some p -> map_found W p) ->
    match run_command E g (match v with AWarning w => Some w | _ => None end) W s2 with
    | (Done (Some e), s) => blame W g e /\ (e = ECommit \/ calm_start main s) /\ (hopeless W g -> e <> ECommit) /\ polite s
    | (Done None, s) => ~ hopeless W g /\ polite s
    | (Panicked, s) => ~ hopeless W g /\ polite s
    | (Killed, s) => (~ hopeless W g \/ calm_start main s /\ trouble W) /\ polite s
    end) as Hrun.
  { intros s2 Hs2 Hin. assert (~ hopeless W g) as Hh by (intros Hh; by apply Hh).
    assert (forall e, (match v with AWarning w => Some w | _ => None end) <> Some (MErr e)) as Hw.
    { intros e. destruct v; try done. intros [= ->]. clear -Ec. unfold cmd_verify in Ec. destruct (acmd g); try done; repeat case_match; try done.
      by destruct (aarea g), (offset g); cbn in Ec; repeat case_match. }
    pose proof (h_run_nice E g _ W Hw s2 Hs2) as H. destruct (run_command _ _ _ W s2) as [[[e|]| |] s3].
    - destruct H as [Hp H]. destruct (H e eq_refl) as (-> & Ht & Ha). split; [|by split; [left|]].
      split; [done|]. split; [|done]. by split.
    - by destruct H.
    - done.
    - split; [by left|done]. }
  destruct (input_map_path g) as [p|] eqn:Ep.
  2: { unfold mret at 1, M_ret at 1. apply Hrun; [|done]. split; [by apply Hpol|done]. }
  unfold mbind at 1, M_bind at 1.
  pose proof (open_cases W main Input p EOpenInput EBadInput s1 Hc1 Hs1) as Hop.
  specialize (Hop ltac:(unfold idle; rewrite Hother; done)).
  destruct (open_db Input _ _ _ W _) as [[[e|]| |] s2]; [| |done|].
  { unfold mret at 1, M_ret at 1. destruct Hop as [Hc Hop]. assert (e <> ECommit) as Hne' by (by destruct Hop as [[-> _]|[-> _]]).
    split; [destruct Hop as [[-> ?]|(-> & ? & ?)]; (split; [done|]; split; [done|]; by exists p)|]. split; [by right|]. split; [done|]. by apply Hpol. }
  2: { split; [by right|by apply Hpol, Hop]. }
  destruct Hop as (Hc2 & Hs2 & Hmf2 & _).
  unfold mbind at 1, M_bind at 1. unfold modify at 1. unfold mret at 1, M_ret at 1. apply Hrun.
  - split; [by apply Hpol in Hc2|exact Hs2].
  - by intros p' [= <-].
Qed.

Lemma error_true E g W main input e : supplied g ->
  let s := (thread_main E g W (start main input)).2 in
  TLog LError (MErr e) ∈ trace s ->
  blame W g e /\ (e = ECommit \/ trace s = [TLog LError (MErr e)] /\ final Main s = main).
Proof.
  intros Hsup. cbv zeta. pose proof (refuse_cases E g W main input Hsup) as H. unfold thread_main, mbind, M_bind.
  destruct (compute_thread E g W (start main input)) as [[[e'|]| |] s].
  - destruct H as (Hb & Hc & _ & Hp). cbn. rewrite elem_of_app, elem_of_list_singleton. intros [He|He]; [by destruct (Hp LError e)|].
    inv He. split; [done|]. destruct Hc as [?|[Ht Hd]]; [by left|]. right. rewrite Ht. by split.
  - destruct H as [_ Hp]. cbn. intros He. by destruct (Hp LError e).
  - destruct H as [_ Hp]. cbn. intros He. by destruct (Hp LError e).
  - destruct H as [_ Hp]. cbn. intros He. by destruct (Hp LError e).
Qed.

Lemma refused E g W main input : supplied g -> hopeless W g ->
  let '(r, s) := thread_main E g W (start main input) in
  final Main s = main /\
  (r = Done tt /\ (exists e, trace s = [TLog LError (MErr e)] /\ blame W g e) \/ r = Killed /\ trace s = [] /\ trouble W).
Proof.
  intros Hsup Hh. pose proof (refuse_cases E g W main input Hsup) as H.
  unfold thread_main, mbind, M_bind.
  destruct (compute_thread E g W (start main input)) as [[[e'|]| |] s].
  - destruct H as (Hb & Hc & Hne & Hp). cbn. destruct Hc as [Hc|[Ht Hd]]; [by destruct (Hne Hh)|].
    split; [done|]. left. split; [done|]. exists e'. by rewrite Ht.
  - by destruct H.
  - by destruct H.
  - destruct H as [[?|[[Ht Hd] Htr]] _]; [done|]. split; [done|]. by right.
Qed.
