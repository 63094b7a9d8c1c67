(** Runs under arbitrary faults: what always holds *)
From Verif Require Import Sys SysProofs SpecRun SpecCmd Instance ArgProofs.

(** ** Invariants of actions in all worlds *)
Definition keeps {A} (I : sys -> Prop) (m : M A) : Prop := forall W, hoare W I m (fun _ => I) I.

Lemma k_ret {A} I (a : A) : keeps I (mret a).
Proof. intros W. by apply h_ret. Qed.
Lemma k_bind {A B} I (m : M A) (f : A -> M B) : keeps I m -> (forall a, keeps I (f a)) -> keeps I (m ≫= f).
Proof. intros Hm Hf W. eapply h_bind; [apply Hm|]. intros a. apply Hf. Qed.
Lemma k_panic {A} I : keeps I (@panic A).
Proof. by intros W s Hs. Qed.
Lemma k_ask {A} I (f : world -> A) : keeps I (ask f).
Proof. by intros W s Hs. Qed.
Lemma k_gets {A} I (f : sys -> A) : keeps I (gets f).
Proof. by intros W s Hs. Qed.
Lemma k_rows I m : keeps I (row_order m).
Proof. by intros W s Hs. Qed.
Lemma k_lift {A} I (o : out A) : keeps I (lift o).
Proof. destruct o; [apply k_ret|apply k_panic]. Qed.
Lemma k_unwrapM {A} I (o : option A) : keeps I (unwrapM o).
Proof. apply k_lift. Qed.
Lemma k_unwrapD {A} I (r : dres A) : keeps I (unwrapD r).
Proof. destruct r; [apply k_ret|apply k_panic]. Qed.
Lemma k_foldM {A B} I (f : A -> B -> M A) l a : (forall a x, keeps I (f a x)) -> keeps I (foldM f l a).
Proof. intros H. revert a. induction l; intros b; simpl; [apply k_ret|]. apply k_bind; auto. Qed.

Section conns.
  (** What is known of the two connections *)
  Context (P : which -> conn -> Prop).
  Context (Hrb : forall w c, P w c -> P w (Conn (disk c) None)).
  Context (Hbegin : forall w c, P w c -> work c = None -> P w (Conn (disk c) (Some (disk c)))).
  Definition cI (s : sys) : Prop := P Main (cn (db s)) /\ P Input (cn (idb s)).

  Lemma cI_put w c s : cI s -> P w c -> cI (put_conn w c (tick s)).
  Proof. intros [H1 H2] Hc. by destruct w; split. Qed.
  Lemma cI_get w s : cI s -> P w (cn (get_db w s)).
  Proof. intros [H1 H2]. by destruct w. Qed.

  Lemma k_exec {A} w (f : conn -> option (A * conn)) :
    (forall c a c', P w c -> f c = Some (a, c') -> P w c') -> keeps cI (exec w f).
  Proof.
    intros Hf W s Hs. unfold exec. pose proof (cI_get w s Hs) as Hc.
    destruct (faults W (ticks s)) as [|rb|after].
    - destruct (f _) as [[a c']|] eqn:E; [|done]. apply cI_put; eauto.
    - destruct rb; [|done]. apply cI_put; auto.
    - destruct (f _) as [[a c']|] eqn:E; [|done]. destruct after; [|done]. apply cI_put; eauto.
  Qed.
  Lemma k_read {A} w (h : mapdata -> A) : keeps cI (exec w (st_read h)).
  Proof. apply k_exec. by intros c a c' Hc [= <- <-]. Qed.
  Lemma k_begin w : keeps cI (exec w st_begin).
  Proof.
    apply k_exec. unfold st_begin. intros c a c' Hc. destruct (work c) eqn:Ew; [done|]. intros [= <- <-]. auto.
  Qed.
  Lemma k_vac w : keeps cI (exec w st_vacuum).
  Proof. apply k_exec. unfold st_vacuum. intros c a c' Hc. destruct (work c); [done|]. by intros [= <- <-]. Qed.
  Lemma k_stmt {A} (m : M (option A)) : keeps cI m -> keeps cI (stmt m).
  Proof. intros H. unfold stmt. apply k_bind; [done|]. intros. apply k_ret. Qed.
  Lemma k_send e : keeps cI (send e).
  Proof. by intros W s Hs. Qed.
  Lemma k_status f : keeps cI (put_status f).
  Proof. by intros W s Hs. Qed.
  Lemma k_flag w b : keeps cI (modify (put_flag w b)).
  Proof. intros W s Hs. by destruct w. Qed.
  Lemma k_log lt m : keeps cI (log lt m).
  Proof. apply k_send. Qed.
  Lemma k_state x : keeps cI (set_state x).
  Proof. unfold set_state. apply k_bind; [apply k_status|]. intros. apply k_send. Qed.
  Lemma k_begin_if w : keeps cI (begin_if_needed w).
  Proof.
    unfold begin_if_needed. apply k_bind; [apply k_gets|]. intros []; [apply k_ret|]. apply k_stmt, k_begin.
  Qed.
  Lemma k_get w key : keeps cI (get_block w key).
  Proof.
    unfold get_block. apply k_bind; [apply k_begin_if|]. intros [|]; [|apply k_ret].
    apply k_bind; [apply k_stmt, k_read|]. intros [[|]|]; apply k_ret.
  Qed.
  Lemma k_next w : keeps cI (next_row w).
  Proof. unfold next_row. apply k_bind; [apply k_stmt, k_read|]. intros. apply k_unwrapD. Qed.
  Lemma k_iter w : keeps cI (iter_rows w).
  Proof.
    unfold iter_rows. apply k_bind; [apply k_begin_if|]. intros. apply k_bind; [apply k_unwrapD|]. intros.
    apply k_bind; [apply k_stmt, k_read|]. intros. apply k_bind; [apply k_unwrapD|]. intros. apply k_rows.
  Qed.
  Lemma k_query w names a inv partial : keeps cI (query_keys w names a inv partial).
  Proof.
    unfold query_keys. apply k_bind; [apply k_state|]. intros. apply k_bind.
    - destruct (_ || _); [|apply k_ret]. apply k_bind; [apply k_iter|]. intros. apply k_bind.
      + apply k_foldM. intros st x. unfold query_step. apply k_bind; [apply k_next|]. intros.
        destruct (row_match _ _ _ _ _ _); [|apply k_ret].
        apply k_bind; [destruct (_ =? 0); [apply k_status|apply k_ret]|]. intros. apply k_ret.
      + intros. apply k_bind; [apply k_next|]. intros. apply k_ret.
    - intros. apply k_bind; [apply k_status|]. intros. apply k_bind; [apply k_state|]. intros. apply k_ret.
  Qed.
  Lemma k_db_new w v : keeps cI (db_new w v).
  Proof.
    unfold db_new. apply k_bind; [apply k_begin|]. intros [|]; [|apply k_ret].
    apply k_bind; [apply k_read|]. intros [[]|]; [|apply k_ret..].
    apply k_bind; [apply k_flag|]. intros. apply k_ret.
  Qed.
  Lemma k_open w p e1 e2 : keeps cI (open_db w p e1 e2).
  Proof.
    unfold open_db. apply k_bind; [apply k_ask|]. intros [|]; [|apply k_ret].
    apply k_bind; [apply k_ask|]. intros. apply k_bind; [apply k_db_new|]. intros. apply k_ret.
  Qed.
  Lemma k_open_input g : keeps cI (open_input g).
  Proof.
    unfold open_input. destruct (input_map_path g); [|apply k_ret]. apply k_bind; [apply k_open|].
    intros [|]; [apply k_ret|]. apply k_bind; [by intros W s Hs|]. intros. apply k_ret.
  Qed.
  Lemma k_consent g w : keeps cI (consent g w).
  Proof.
    unfold consent. apply k_bind; [destruct (do_confirmation g); [apply k_log|apply k_ret]|]. intros.
    apply k_bind; [destruct w; [apply k_log|apply k_ret]|]. intros.
    destruct (do_confirmation g); [|apply k_ret]. unfold get_confirmation.
    apply k_bind; [apply k_send|]. intros. apply k_ask.
  Qed.

  (** Commits and writes of the main map *)
  Context (Hcommit : forall c m, P Main c -> work c = Some m -> P Main (Conn m None)).
  Lemma k_commit : keeps cI (commit_if_needed Main).
  Proof.
    unfold commit_if_needed. apply k_bind; [apply k_gets|]. intros []; [|apply k_ret].
    apply k_bind; [apply k_stmt, k_exec|].
    { unfold st_commit. intros c a c' Hc. destruct (work c) eqn:Ew; [|done]. intros [= <- <-]. eauto. }
    intros [|]; [|apply k_ret]. apply k_bind; [apply k_flag|]. intros. apply k_ret.
  Qed.
  Lemma k_finish : keeps cI finish.
  Proof.
    unfold finish. apply k_bind; [apply k_gets|]. intros. apply k_bind; [destruct (0 <? _); [apply k_log|apply k_ret]|].
    intros. apply k_bind; [apply k_gets|]. intros []; (apply k_bind; [|intros [|]; [apply k_ret|]; (apply k_bind; [apply k_log|]; intros; apply k_ret)]).
    - apply k_bind; [apply k_log|]. intros. apply k_bind; [apply k_commit|]. intros. apply k_ret.
    - apply k_ret.
  Qed.
  Lemma k_vacuum : keeps cI vacuum.
  Proof.
    unfold vacuum. apply k_bind; [apply k_log|]. intros. apply k_bind; [apply k_status|]. intros.
    apply k_bind; [apply k_state|]. intros. apply k_bind.
    { unfold db_vacuum. apply k_bind; [apply k_commit|]. intros [|]; [apply k_stmt, k_vac|apply k_ret]. }
    intros r. apply k_bind; [apply k_state|]. intros. destruct r; apply k_log.
  Qed.

  (** The whole thread, given the command *)
  Lemma k_thread E g : keeps cI (cmd_func E g) -> keeps cI (thread_main E g).
  Proof.
    intros Hc. unfold thread_main. apply k_bind; [|intros [|]; [apply k_log|apply k_ret]].
    unfold compute_thread. destruct (verify_args g); [apply k_ret|].
    apply k_bind; [apply k_lift|]. intros v.
    assert (keeps cI (e1 ← open_db Main (map_path g) EOpenMain EBadMain;
        match e1 with
        | Some e => mret (Some e)
        | None => e2 ← open_input g;
          match e2 with
          | Some e => mret (Some e)
          | None => run_command E g (match v with AWarning w => Some w | _ => None end)
          end
        end)) as H.
    { apply k_bind; [apply k_open|]. intros [|]; [apply k_ret|]. apply k_bind; [apply k_open_input|].
      intros [|]; [apply k_ret|]. unfold run_command. apply k_bind; [apply k_consent|].
      intros []; [|apply k_ret]. apply k_bind; [exact Hc|]. intros. apply k_finish. }
    destruct v; [exact H|exact H|apply k_ret].
  Qed.

  Context (Hwrite : forall c g a c', P Main c -> st_write g c = Some (a, c') -> P Main c').
  Lemma k_set w key d : keeps cI (set_block w key d).
  Proof.
    unfold set_block. apply k_bind; [apply k_begin_if|]. intros [|]; [|apply k_ret]. apply k_stmt, k_exec.
    destruct w; [|done]. eauto.
  Qed.
  Lemma k_delete w key : keeps cI (delete_block w key).
  Proof.
    unfold delete_block. apply k_bind; [apply k_begin_if|]. intros [|]; [|apply k_ret]. apply k_stmt, k_exec.
    destruct w; [|done]. eauto.
  Qed.

  Lemma k_edit_blocks late names a inv partial body : keeps cI (edit_blocks late names a inv partial body).
  Proof.
    unfold edit_blocks. apply k_bind; [apply k_query|]. intros. apply k_bind; [apply k_state|]. intros.
    apply k_bind; [|intros; apply k_bind; [apply k_state|]; intros; apply k_ret].
    apply k_foldM. intros c k. unfold edit_block.
    apply k_bind; [destruct late; [apply k_ret|apply k_status]|]. intros.
    apply k_bind; [apply k_get|]. intros. apply k_bind; [apply k_unwrapD|]. intros.
    apply k_bind; [apply k_lift|]. intros ec. apply k_bind; [|intros; apply k_ret].
    destruct ec.1; [apply k_status|destruct late; [apply k_status|apply k_ret]|].
    apply k_bind; [apply k_set|]. intros. apply k_bind; [apply k_unwrapD|]. intros.
    destruct late; [apply k_status|apply k_ret].
  Qed.
  Lemma k_cached E w c key : keeps cI (get_cached E w c key).
  Proof.
    unfold get_cached. destruct (cache_get c key); [apply k_ret|]. apply k_bind; [apply k_get|]. intros. apply k_ret.
  Qed.
  Lemma k_copy_from E w part ofs pos dst c : keeps cI (copy_from E w part ofs pos dst c).
  Proof.
    unfold copy_from. apply k_bind; [apply k_unwrapM|]. intros ps. apply k_foldM. intros st p. unfold copy_step.
    destruct (negb _); [apply k_ret|]. apply k_bind; [apply k_lift|]. intros.
    apply k_bind; [apply k_cached|]. intros rc. destruct rc.1 as [[|]|]; [|apply k_ret..].
    apply k_bind; [apply k_lift|]. intros. apply k_ret.
  Qed.
  Lemma k_clean_write E key b : keeps cI (clean_write E key b).
  Proof.
    unfold clean_write. apply k_bind; [apply k_lift|]. intros. apply k_bind; [apply k_set|]. intros. apply k_unwrapD.
  Qed.
  Lemma k_cmd E g : keeps cI (cmd_func E g).
  Proof.
    unfold cmd_func. destruct (acmd g).
    - unfold clone. apply k_bind; [apply k_unwrapM|]. intros. apply k_bind; [apply k_unwrapM|]. intros.
      apply k_bind; [apply k_query|]. intros. apply k_bind; [apply k_lift|]. intros.
      apply k_bind; [apply k_state|]. intros. apply k_bind; [|intros; apply k_state].
      apply k_foldM. intros c k. unfold clone_step. apply k_bind; [apply k_status|]. intros.
      apply k_bind; [apply k_cached|]. intros rc. destruct rc.1 as [[|]|]; [| |apply k_ret].
      + apply k_bind; [apply k_unwrapM|]. intros. apply k_bind; [apply k_copy_from|]. intros.
        apply k_bind; [apply k_clean_write|]. intros. apply k_ret.
      + apply k_bind; [apply k_status|]. intros. apply k_ret.
    - unfold delete_blocks. apply k_bind; [apply k_query|]. intros. apply k_bind; [apply k_state|]. intros.
      apply k_bind; [|intros; apply k_state]. apply k_foldM. intros c k. unfold delete_step.
      apply k_bind; [apply k_status|]. intros. apply k_bind; [apply k_delete|]. intros. apply k_unwrapD.
    - unfold delete_metadata. apply k_bind; [apply k_edit_blocks|]. intros. apply k_log.
    - unfold delete_objects. apply k_bind; [apply k_edit_blocks|]. intros. apply k_log.
    - unfold delete_timers. apply k_bind; [apply k_edit_blocks|]. intros. apply k_log.
    - unfold fill. apply k_bind; [apply k_unwrapM|]. intros. apply k_bind; [apply k_unwrapM|]. intros.
      apply k_bind; [apply k_edit_blocks|]. intros. apply k_log.
    - unfold replace_nodes. apply k_bind; [apply k_unwrapM|]. intros. apply k_bind; [apply k_unwrapM|]. intros.
      apply k_bind; [apply k_edit_blocks|]. intros. apply k_log.
    - unfold replace_in_inv. apply k_bind; [apply k_unwrapM|]. intros. apply k_bind; [apply k_edit_blocks|]. intros. apply k_log.
    - unfold overlay. destruct (bool_decide _).
      + unfold overlay_no_offset. apply k_bind; [apply k_gets|]. intros has.
        apply k_bind; [destruct has; [apply k_ret|apply k_panic]|]. intros.
        apply k_bind; [apply k_query|]. intros. apply k_bind; [apply k_state|]. intros.
        apply k_bind; [|intros; apply k_state]. apply k_foldM. intros [] k. unfold overlay_step.
        assert (keeps cI (copy_whole E k)) as Hw.
        { unfold copy_whole. apply k_bind; [apply k_get|]. intros. apply k_bind; [apply k_unwrapD|]. intros.
          destruct (is_valid_generated _ _); [|apply k_ret]. apply k_bind; [apply k_set|]. intros. apply k_unwrapD. }
        apply k_bind; [apply k_status|]. intros. destruct (aarea g) as [ar|]; [|exact Hw].
        destruct (_ || _); [exact Hw|]. unfold overlay_part. apply k_bind; [apply k_get|]. intros.
        destruct (keep _ _); [|apply k_ret]. apply k_bind; [apply k_get|]. intros. apply k_bind; [apply k_unwrapD|]. intros.
        destruct (deserialize _ _); [|apply k_status]. destruct (deserialize _ _); [|apply k_status].
        apply k_bind; [apply k_lift|]. intros. apply k_clean_write.
      + unfold overlay_with_offset. apply k_bind; [apply k_unwrapM|]. intros. apply k_bind; [apply k_gets|]. intros has.
        apply k_bind; [destruct has; [apply k_ret|apply k_panic]|]. intros.
        apply k_bind; [apply k_query|]. intros. apply k_bind; [apply k_state|]. intros.
        apply k_bind; [|intros; apply k_state]. apply k_foldM. intros c k. unfold offset_step.
        apply k_bind; [apply k_status|]. intros. apply k_bind; [apply k_get|]. intros.
        destruct (keep _ _); [|apply k_ret]. destruct (deserialize _ _).
        * apply k_bind; [apply k_lift|]. intros. apply k_bind; [apply k_copy_from|]. intros.
          apply k_bind; [apply k_clean_write|]. intros. apply k_ret.
        * apply k_bind; [apply k_status|]. intros. apply k_ret.
    - unfold set_meta_var. apply k_bind; [apply k_unwrapM|]. intros. apply k_bind; [apply k_edit_blocks|]. intros. apply k_log.
    - unfold set_param2. apply k_bind; [apply k_unwrapM|]. intros. apply k_bind; [apply k_edit_blocks|]. intros. apply k_log.
    - apply k_vacuum.
  Qed.
End conns.

(** A map that nothing has changed *)
Definition intact (m : mapdata) (c : conn) : Prop := disk c = m /\ (work c = None \/ work c = Some m).

Lemma keeps_final {A} I (m : M A) W s : keeps I m -> I s -> I (m W s).2.
Proof.
  intros H Hs. specialize (H W s Hs). destruct (m W s) as [[a| |] s']; done.
Qed.

Lemma input_intact E g W main input : final Input (thread_main E g W (start main input)).2 = input.
Proof.
  set (P := fun w c => match w with Main => True | Input => intact input c end).
  apply (keeps_final (cI P) (thread_main E g) W (start main input)).
  - apply k_thread.
    + intros []; [done|]. intros c [H _]. by split; [|left].
    + intros []; [done|]. intros c [H _] _. split; [done|]. right. simpl. by rewrite H.
    + done.
    + apply k_cmd.
      * intros []; [done|]. intros c [H _]. by split; [|left].
      * intros []; [done|]. intros c [H _] _. split; [done|]. right. simpl. by rewrite H.
      * done.
      * done.
  - split; [done|]. split; [done|by left].
Qed.

Definition untouched_conn (main : mapdata) (w : which) (c : conn) : Prop :=
  match w with Main => intact main c | Input => True end.
Lemma untouched_rb main w c : untouched_conn main w c -> untouched_conn main w (Conn (disk c) None).
Proof. destruct w; [|done]. intros [H _]. by split; [|left]. Qed.
Lemma untouched_begin main w c : untouched_conn main w c -> work c = None ->
  untouched_conn main w (Conn (disk c) (Some (disk c))).
Proof. destruct w; [|done]. intros [H _] _. split; [done|]. right. simpl. by rewrite H. Qed.
Lemma untouched_commit main c m : untouched_conn main Main c -> work c = Some m -> untouched_conn main Main (Conn m None).
Proof. intros [H [Hw|Hw]] Hm; rewrite Hw in Hm; [done|]. inversion Hm. by split; [|left]. Qed.

Lemma vacuum_intact E g W main input : acmd g = CVacuum ->
  final Main (thread_main E g W (start main input)).2 = main.
Proof.
  intros Hc. apply (keeps_final (cI (untouched_conn main)) (thread_main E g) W (start main input)).
  - apply k_thread; [apply untouched_rb|apply untouched_begin|apply untouched_commit|].
    unfold cmd_func. rewrite Hc. apply k_vacuum; [apply untouched_rb|apply untouched_commit].
  - split; [|done]. split; [done|by left].
Qed.

(** ** Nothing happens without consent *)

Definition hushed (s : sys) : Prop := Forall quiet (trace s).

Lemma k_and {A} I1 I2 (m : M A) : keeps I1 m -> keeps I2 m -> keeps (fun s => I1 s /\ I2 s) m.
Proof.
  intros H1 H2 W s [Hs1 Hs2]. specialize (H1 W s Hs1). specialize (H2 W s Hs2).
  destruct (m W s) as [[a| |] s']; done.
Qed.
Lemma q_exec {A} w (f : conn -> option (A * conn)) : keeps hushed (exec w f).
Proof.
  intros W s Hs. unfold exec. destruct (faults W (ticks s)) as [|[]|[]].
  - destruct (f _) as [[a c']|]; [|done]. by destruct w.
  - by destruct w.
  - done.
  - destruct (f _) as [[a c']|]; [|done]. by destruct w.
  - by destruct (f _) as [[a c']|].
Qed.
Lemma q_send e : quiet e -> keeps hushed (send e).
Proof. intros He W s Hs. simpl. unfold hushed. simpl. apply Forall_app. split; [done|]. by constructor. Qed.
Lemma q_open w p e1 e2 : keeps hushed (open_db w p e1 e2).
Proof.
  unfold open_db. apply k_bind; [apply k_ask|]. intros [|]; [|apply k_ret].
  apply k_bind; [apply k_ask|]. intros v. apply k_bind; [|intros; apply k_ret].
  unfold db_new. apply k_bind; [apply q_exec|]. intros [|]; [|apply k_ret].
  apply k_bind; [apply q_exec|]. intros [[]|]; [|apply k_ret..].
  apply k_bind; [intros W s Hs; by destruct w|]. intros. apply k_ret.
Qed.
Lemma q_open_input g : keeps hushed (open_input g).
Proof.
  unfold open_input. destruct (input_map_path g); [|apply k_ret]. apply k_bind; [apply q_open|].
  intros [|]; [apply k_ret|]. apply k_bind; [by intros W s Hs|]. intros. apply k_ret.
Qed.

Lemma refused_intact E g W main input : supplied g ->
  ~ legal g \/ (do_confirmation g = true /\ answer W = false) ->
  let s := (thread_main E g W (start main input)).2 in
  final Main s = main /\ final Input s = input /\ Forall quiet (trace s).
Proof.
  intros Hsup Hbad s. split; [|split; [apply input_intact|]].
  all: assert (cI (untouched_conn main) s /\ hushed s) as [[[Hd _] _] Hq]; [|done].
  all: set (I := fun s => cI (untouched_conn main) s /\ hushed s).
  all: assert (I (start main input)) as H0 by (split; [split; [split; [done|by left]|done]|constructor]).
  all: assert (hoare W I (thread_main E g) (fun _ => I) I) as H;
    [|specialize (H _ H0); unfold s; by destruct (thread_main E g W (start main input)) as [[?| |] ?]].
  all: unfold thread_main.
  all: assert (forall e, keeps I (log LError e)) as Hlog by (intros e; apply k_and; [apply k_log|by apply q_send]).
  all: eapply h_bind with (Q1 := fun _ => I); [|intros [|]; [apply Hlog|by apply h_ret]].
  all: rewrite legal_iff in Hbad by done; unfold compute_thread.
  all: destruct (verify_args g) eqn:Ev; [by apply h_ret|].
  all: destruct (cmd_verify g) as [v|] eqn:Ec; [|apply k_panic].
  all: apply h_ret_bind.
  all: assert (do_confirmation g = true /\ answer W = false \/ exists e, v = AError e) as [[Hc Ha]|[e ->]];
    [destruct Hbad as [Hn|?]; [|by left]; right; destruct v as [| |e]; [destruct Hn; split; [done|]; by eexists..|by eexists]| |by apply h_ret].
  all: assert (hoare W I (e1 ← open_db Main (map_path g) EOpenMain EBadMain;
        match e1 with
        | Some e => mret (Some e)
        | None => e2 ← open_input g;
          match e2 with
          | Some e => mret (Some e)
          | None => run_command E g (match v with AWarning w => Some w | _ => None end)
          end
        end) (fun _ => I) I) as Hk; [|by destruct v; [..|apply h_ret]].
  all: eapply h_bind; [apply k_and; [apply k_open; [apply untouched_rb|apply untouched_begin]|apply q_open]|].
  all: intros [|]; [by apply h_ret|].
  all: eapply h_bind; [apply k_and; [apply k_open_input; [apply untouched_rb|apply untouched_begin]|apply q_open_input]|].
  all: intros [|]; [by apply h_ret|].
  all: unfold run_command; eapply h_bind with (Q1 := fun ok s => ok = false /\ I s).
  all: try (intros ok; apply h_pre; intros ->; by apply h_ret).
  all: unfold consent; rewrite Hc.
  all: eapply h_bind; [apply k_and; [apply k_log|by apply q_send]|]; intros ?; cbn beta.
  all: eapply h_bind with (Q1 := fun _ => I);
    [destruct v; first [by apply h_ret|apply k_and; [apply k_log|by apply q_send]]|]; intros ?; cbn beta.
  all: unfold get_confirmation; eapply h_bind; [apply k_and; [apply k_send|by apply q_send]|]; intros ?; cbn beta.
  all: intros s1 Hs1; unfold ask; by rewrite Ha.
Qed.
