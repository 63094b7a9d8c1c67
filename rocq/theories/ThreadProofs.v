(** The worker thread when nothing fails *)
From Verif Require Import SysProofs RunProofs ArgProofs SpecRun CodecProofs.

(** The input map once opened *)
Definition idb_opened (g : args) (input : mapdata) : mapdb :=
  match input_map_path g with
  | Some _ => MDB (Conn input (Some input)) true
  | None => MDB (Conn input None) false
  end.
Definition has_input (g : args) : bool :=
  match input_map_path g with Some _ => true | None => false end.

Section thread.
  Context (W : world) (HW : no_faults W).

  Lemma map_found_open p : map_found W p ->
    exists f, keep (can_open W) (find_map W p) = Some f /\ valid_map W f = true.
  Proof.
    intros (f & Hf & Hp & Ho & Hv). exists f. split; [|done]. unfold find_map.
    destruct Hp as [->|[Hp ->]].
    - rewrite Hf. simpl. by rewrite Ho.
    - rewrite Hp, Hf. simpl. by rewrite Ho.
  Qed.

  Lemma open_db_ok w p e1 e2 s : map_found W p -> work (cn (get_db w s)) = None ->
    open_db w p e1 e2 W s
    = (Done None, put_db w (MDB (Conn (disk (cn (get_db w s))) (Some (disk (cn (get_db w s))))) true)
         (tick (tick s))).
  Proof.
    intros Hp Hw. destruct (map_found_open p Hp) as (f & Hf & Hv).
    unfold open_db, open_map, ask. unfold mbind at 1, M_bind at 1. rewrite Hf.
    unfold mbind at 1, M_bind at 1. rewrite Hv.
    unfold db_new, mbind, M_bind, mret, M_ret. rewrite exec_ok by done. unfold st_begin. rewrite Hw.
    rewrite exec_ok by done. unfold st_read, modify. f_equal.
    destruct s, w; done.
  Qed.

  Definition committed (m : mapdata) (i : mapdb) (t : list (log_type * msg)) (s : sys) : Prop :=
    db s = MDB (Conn m None) false /\ idb s = i /\ logs (trace s) = t.
  Lemma h_commit d m i h u t :
    hoare W (st d m i h u t) (commit_if_needed Main) (fun r s => r = DOk tt /\ committed m i t s) never.
  Proof.
    intros s (Hdb & Hidb & Hh & Hu & Ht).
    unfold commit_if_needed, is_in_transaction, gets, stmt, modify, mbind, M_bind, mret, M_ret.
    cbn [get_db]. rewrite Hdb. cbn [in_tr]. rewrite exec_ok by done. cbn [get_db]. rewrite Hdb. cbn.
    done.
  Qed.
  Lemma h_log_committed m i t lt x :
    hoare W (committed m i t) (log lt x) (fun _ => committed m i (t ++ [(lt, x)])) never.
  Proof.
    intros s (Hdb & Hidb & Ht). unfold log, send, modify. repeat split; simpl; try congruence.
    rewrite logs_app. by rewrite Ht.
  Qed.
  Lemma h_is_in d m i h u t :
    hoare W (st d m i h u t) (is_in_transaction Main) (fun f s => f = true /\ st d m i h u t s) never.
  Proof. intros s H. unfold is_in_transaction, gets. split; [|done]. simpl. by destruct H as (-> & _). Qed.

  Lemma h_finish d m i h u t :
    hoare W (st d m i h u t) finish
      (fun r s => r = None /\ committed m i (t ++ closing (blocks_failed u)) s) never.
  Proof.
    unfold finish. eapply h_bind with (Q1 := fun n s => n = blocks_failed u /\ st d m i h u t s).
    { intros s H. unfold gets. split; [|done]. by destruct H as (_ & _ & _ & -> & _). }
    intros n. apply h_pre. intros ->.
    eapply h_bind with (Q1 := fun _ => st d m i h u
      (t ++ (if 0 <? blocks_failed u then [(LInfo, MSkipped (blocks_failed u))] else []))).
    { destruct (0 <? blocks_failed u); [apply h_log|apply h_ret; by rewrite app_nil_r]. }
    intros ?. cbn beta. set (t1 := t ++ _).
    eapply h_bind; [apply h_is_in|]. intros f. apply h_pre. intros ->.
    eapply h_bind with (Q1 := fun e s => e = None /\ committed m i (t1 ++ [(LInfo, MCommitting)]) s).
    { eapply h_bind; [apply h_log|]. intros ?. cbn beta.
      eapply h_bind; [apply h_commit|]. intros r. apply h_pre. intros ->. by apply h_ret. }
    intros e. apply h_pre. intros ->.
    eapply h_bind; [apply h_log_committed|]. intros ?. cbn beta. apply h_ret. intros s H.
    split; [done|]. unfold closing. unfold t1 in H. by rewrite <-!app_assoc in H.
  Qed.

  (** Runs of the thread, given a triple for the command and the end of the run. *)
  Lemma thread_run_end E g main input (R : mapdata -> list (log_type * msg) -> Prop) :
    supplied g -> legal g -> ready W g ->
    (forall t, hoare W (st main main (idb_opened g input) (has_input g) status_new t) (cmd_func E g ;; finish)
       (fun r s => r = None /\ exists m' l, R m' l /\ final Main s = m' /\ final Input s = input /\
          logs (trace s) = t ++ l) never) ->
    exists m' l, R m' l /\ run_ok E g W main input m' (warnings g ++ l).
  Proof.
    intros Hs Hl (Hm & Hi & Ha) Hc.
    apply legal_iff in Hl as (Hv & v & Hcv & He); [|done].
    unfold run_ok, thread_main, compute_thread. rewrite Hv, Hcv.
    assert (exists s1, (e1 ← open_db Main (map_path g) EOpenMain EBadMain;
      match e1 with Some e => mret (Some e) | None => open_input g end) W (start main input) = (Done None, s1)
      /\ st main main (idb_opened g input) (has_input g) status_new [] s1) as (s1 & Eopen & Hs1).
    { unfold mbind, M_bind. rewrite open_db_ok by done. simpl.
      unfold open_input, idb_opened, has_input. destruct (input_map_path g) as [p|] eqn:Ep.
      - unfold mbind at 1, M_bind at 1. rewrite open_db_ok; [|by apply Hi|done]. simpl.
        eexists. split; [done|]. done.
      - eexists. split; [done|]. done. }
    set (w := match v with AWarning w => Some w | _ => None end).
    assert (forall k : M (option inst_error),
      (match v with AError e => mret (Some (EArg e)) | AOk | AWarning _ => k end) = k) as Hk.
    { intros k. destruct v; [done|done|by destruct (He e)]. }
    assert (hoare W (st main main (idb_opened g input) (has_input g) status_new []) (run_command E g w)
      (fun r s => r = None /\ exists m' l, R m' l /\ final Main s = m' /\ final Input s = input /\
         logs (trace s) = warnings g ++ l) never) as Hrun.
    { unfold run_command, consent.
      eapply h_bind with (Q1 := fun ok s => ok = true /\
        st main main (idb_opened g input) (has_input g) status_new (warnings g) s).
      { eapply h_bind with (Q1 := fun _ => st main main (idb_opened g input) (has_input g) status_new
           (if do_confirmation g then [(LWarning, MDanger)] else [])).
        { destruct (do_confirmation g); [apply h_log|by apply h_ret]. }
        intros ?. cbn beta.
        eapply h_bind with (Q1 := fun _ => st main main (idb_opened g input) (has_input g) status_new (warnings g)).
        { rewrite (verify_warning _ _ Hcv He). unfold w.
          destruct v; [apply h_ret; by rewrite app_nil_r|apply h_log|by destruct (He e)]. }
        intros ?. cbn beta. destruct (do_confirmation g); [|by apply h_ret].
        unfold get_confirmation. eapply h_bind; [apply h_send|]. intros ?. cbn beta.
        intros s H. unfold ask. rewrite Ha by done. split; [done|]. by rewrite app_nil_r in H. }
      intros ok. apply h_pre. intros ->. apply Hc. }
    pose proof (Hrun s1 Hs1) as Hr.
    unfold mbind at 1, M_bind at 1. unfold mbind at 1, M_bind at 1. unfold lift, mret at 1, M_ret at 1.
    rewrite Hk.
    unfold mbind, M_bind in Eopen. unfold mbind, M_bind.
    destruct (open_db Main (map_path g) EOpenMain EBadMain W (start main input)) as [[e1| |] s0]; [|done..].
    destruct e1 as [e1|]; [done|]. rewrite Eopen. fold w.
    destruct (run_command E g w W s1) as [[r| |] s2]; [|done..].
    destruct Hr as (-> & m' & l & HR & H1 & H2 & H3). exists m', l. split; [done|]. by exists s2.
  Qed.

  Lemma final_input g input : disk (cn (idb_opened g input)) = input.
  Proof. unfold idb_opened. by destruct (input_map_path g). Qed.

  (** Runs of the thread, given a triple for the command. *)
  Lemma thread_run E g main input (R : status_t -> mapdata -> list (log_type * msg) -> Prop) :
    supplied g -> legal g -> ready W g ->
    (forall t, hoare W (st main main (idb_opened g input) (has_input g) status_new t) (cmd_func E g)
       (fun _ s => exists u m' l, R u m' l /\ st main m' (idb_opened g input) (has_input g) u (t ++ l) s) never) ->
    exists u m' l, R u m' l /\
      run_ok E g W main input m' (warnings g ++ l ++ closing (blocks_failed u)).
  Proof.
    intros Hs Hl Hr Hc.
    destruct (thread_run_end E g main input (fun m' l' => exists u l, R u m' l /\ l' = l ++ closing (blocks_failed u)))
      as (m' & ? & (u & l & HR & ->) & Hrun); [done..| |by exists u, m', l].
    intros t. eapply h_bind; [apply Hc|]. intros ?. cbn beta.
    apply h_ex. intros u. apply h_ex. intros m'. apply h_ex. intros l. apply h_pre. intros HR.
    eapply h_post; [apply h_finish|]. intros r s (-> & Hdb & Hidb & Ht). split; [done|].
    eexists m', _. split; [by eexists u, l|]. unfold final; simpl. rewrite Hdb, Hidb. split; [done|].
    split; [apply final_input|]. by rewrite Ht, <-!app_assoc.
  Qed.

  (** ** vacuum *)
  Definition cleaned (m : mapdata) (i : mapdb) (t : list (log_type * msg)) (s : sys) : Prop :=
    committed m i t s /\ blocks_failed (status s) = 0.
  Lemma h_log_cleaned m i t lt x :
    hoare W (cleaned m i t) (log lt x) (fun _ => cleaned m i (t ++ [(lt, x)])) never.
  Proof. intros s [Hc Hf]. split; [|done]. by apply (h_log_committed m i t lt x s). Qed.
  Lemma vacuum_run E g main input : supplied g -> legal g -> ready W g -> acmd g = CVacuum ->
    run_ok E g W main input main (warnings g ++ [(LInfo, MVacStart); (LInfo, MVacDone); (LInfo, MDone)]).
  Proof.
    intros Hs Hl Hr Hcmd.
    destruct (thread_run_end E g main input (fun m' l' => m' = main /\
      l' = [(LInfo, MVacStart); (LInfo, MVacDone); (LInfo, MDone)])) as (m' & l & [-> ->] & Hrun); [done..| |done].
    intros t. unfold cmd_func. rewrite Hcmd. set (i := idb_opened g input).
    eapply h_bind with (Q1 := fun _ => cleaned main i (t ++ [(LInfo, MVacStart); (LInfo, MVacDone)])).
    - unfold vacuum. eapply h_bind; [apply h_log|]. intros ?. cbn beta.
      eapply h_bind; [apply h_put_status|]. intros ?. cbn beta.
      eapply h_bind; [apply h_set_state|]. intros ?. cbn beta.
      eapply h_bind with (Q1 := fun r s => r = DOk tt /\ cleaned main i (t ++ [(LInfo, MVacStart)]) s).
      + intros s Hst. unfold db_vacuum. unfold mbind at 1, M_bind at 1.
        pose proof (h_commit main main i (has_input g) _ _ s Hst) as Hc.
        assert (status ((commit_if_needed Main W s).2) = status s) as Hst'.
        { destruct Hst as (Hdb & _). unfold commit_if_needed, is_in_transaction, gets, stmt, modify, mbind, M_bind, mret, M_ret.
          cbn [get_db]. rewrite Hdb. cbn [in_tr]. rewrite exec_ok by done. cbn [get_db]. by rewrite Hdb. }
        destruct (commit_if_needed Main W s) as [[r| |] s']; [|done..]. destruct Hc as [-> Hc]. simpl in Hst'.
        unfold stmt, mbind, M_bind. rewrite exec_ok by done. cbn [get_db].
        destruct Hc as (Hdb & Hidb & Ht). rewrite Hdb. cbn [cn st_vacuum work].
        split; [done|]. split; [split; [|by split]|].
        * unfold put_conn. simpl. by rewrite Hdb.
        * destruct Hst as (_ & _ & _ & Hu & _). unfold put_conn. simpl. rewrite Hst', Hu. done.
      + intros r. apply h_pre. intros ->.
        eapply h_bind with (Q1 := fun _ => cleaned main i (t ++ [(LInfo, MVacStart)])).
        { intros s [(Hdb & Hidb & Ht) Hf]. split; [|done]. split; [done|]. split; [done|].
          cbn. rewrite !logs_app. cbn. by rewrite !app_nil_r. }
        intros ?. cbn beta. eapply h_post; [apply h_log_cleaned|]. intros ? s H. by rewrite <-app_assoc in H.
    - intros ?. cbn beta. unfold finish.
      eapply h_bind with (Q1 := fun n s => n = 0 /\ cleaned main i (t ++ [(LInfo, MVacStart); (LInfo, MVacDone)]) s).
      { intros s H. split; [by destruct H|done]. }
      intros n. apply h_pre. intros ->. cbn [Z.ltb Z.compare].
      eapply h_bind with (Q1 := fun _ => cleaned main i (t ++ [(LInfo, MVacStart); (LInfo, MVacDone)])); [by apply h_ret|].
      intros ?. cbn beta.
      eapply h_bind with (Q1 := fun f s => f = false /\ cleaned main i (t ++ [(LInfo, MVacStart); (LInfo, MVacDone)]) s).
      { intros s H. split; [|done]. destruct H as [(Hdb & _) _]. simpl. by rewrite Hdb. }
      intros f. apply h_pre. intros ->.
      eapply h_bind with (Q1 := fun e s => e = None /\ cleaned main i (t ++ [(LInfo, MVacStart); (LInfo, MVacDone)]) s);
        [by apply h_ret|].
      intros e. apply h_pre. intros ->. eapply h_bind; [apply h_log_cleaned|]. intros ?. cbn beta.
      apply h_ret. intros s [(Hdb & Hidb & Ht) _]. split; [done|]. eexists _, _. split; [done|].
      unfold final; simpl. rewrite Hdb, Hidb. split; [done|]. split; [apply final_input|]. by rewrite Ht, <-app_assoc.
  Qed.
End thread.

(** Commands that edit blocks one by one, with a final message *)
Lemma thread_edit E W g main input late search a inv partial body f mk :
  no_faults W -> world_ok W -> supplied g -> legal g -> ready W g ->
  (forall k x, main !! k = Some x -> row_sel search a inv partial k x = true -> body k x = Ret (f k x)) ->
  cmd_func E g = (c ← edit_blocks late search a inv partial body; log LInfo (mk c)) ->
  let rows := sel_rows search a inv partial (map_to_list main) in
  run_ok E g W main input (edit_map (row_sel search a inv partial) f main)
    (warnings g ++ [(LInfo, mk (u64 (zsum (fun r => (f r.1 r.2).2.1) rows),
                                u64 (zsum (fun r => (f r.1 r.2).2.2) rows)))] ++
     closing (u64 (zsum (fun r => failed1 (f r.1 r.2).1) rows))).
Proof.
  intros HW HO Hs Hl Hr Hb Hcmd rows.
  destruct (thread_run W HW E g main input (fun u m' l =>
    blocks_failed u = u64 (zsum (fun r => failed1 (f r.1 r.2).1) rows) /\
    m' = edit_map (row_sel search a inv partial) f main /\
    l = [(LInfo, mk (u64 (zsum (fun r => (f r.1 r.2).2.1) rows),
                     u64 (zsum (fun r => (f r.1 r.2).2.2) rows)))])) as (u & m' & l & (H1 & -> & ->) & Hrun);
    [done..| |by rewrite <-H1].
  intros t. rewrite Hcmd. eapply h_bind.
  - apply h_edit_blocks with (f := f); [done..|]. simpl. lia.
  - intros c. cbn beta zeta. fold rows. apply h_pre. intros ->. apply h_ex. intros u. apply h_pre. intros Hu.
    eapply h_post; [apply h_log|]. intros ? s H. exists u. eexists _, _. split; [|exact H].
    split; [exact Hu|done].
Qed.
