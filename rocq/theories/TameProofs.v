(** Only the confirmation depends on the user, and events are only ever added *)
From Verif Require Import Sys SysProofs Instance Ui.

Definition tame {A} (m : M A) : Prop := forall W b s,
  m (replying b W) s = m W s /\
  exists l, trace (m W s).2 = trace s ++ l /\ Forall (fun e => is_confirm e = false) l.

Lemma tm_same {A} (m : M A) : (forall W b s, m (replying b W) s = m W s) ->
  (forall W s, trace (m W s).2 = trace s) -> tame m.
Proof. intros H1 H2 W b s. split; [done|]. exists []. by rewrite H2, app_nil_r. Qed.
Lemma tm_ret {A} (a : A) : tame (mret a).
Proof. by apply tm_same. Qed.
Lemma tm_bind {A B} (m : M A) (f : A -> M B) : tame m -> (forall a, tame (f a)) -> tame (m ≫= f).
Proof.
  intros Hm Hf W b s. destruct (Hm W b s) as [E (l & Hl & HF)]. unfold mbind, M_bind. rewrite E.
  destruct (m W s) as [[a| |] s']; simpl in *; [|eauto..].
  destruct (Hf a W b s') as [E' (l' & Hl' & HF')]. split; [done|].
  exists (l ++ l'). rewrite Hl', Hl, app_assoc, Forall_app. done.
Qed.
Lemma tm_panic {A} : tame (@panic A).
Proof. by apply tm_same. Qed.
Lemma tm_gets {A} (f : sys -> A) : tame (gets f).
Proof. by apply tm_same. Qed.
Lemma tm_rows m : tame (row_order m).
Proof. by apply tm_same. Qed.
Lemma tm_ask {A} (f : world -> A) : (forall W b, f (replying b W) = f W) -> tame (ask f).
Proof. intros H. apply tm_same; [|done]. intros W b s. unfold ask. by rewrite H. Qed.
Lemma tm_lift {A} (o : out A) : tame (lift o).
Proof. destruct o; [apply tm_ret|apply tm_panic]. Qed.
Lemma tm_unwrapM {A} (o : option A) : tame (unwrapM o).
Proof. apply tm_lift. Qed.
Lemma tm_unwrapD {A} (r : dres A) : tame (unwrapD r).
Proof. destruct r; [apply tm_ret|apply tm_panic]. Qed.
Lemma tm_fold {A B} (f : A -> B -> M A) l a : (forall a x, tame (f a x)) -> tame (foldM f l a).
Proof. intros H. revert a. induction l; intros b; simpl; [apply tm_ret|]. apply tm_bind; auto. Qed.
Lemma trace_put w c s : trace (put_conn w c s) = trace s.
Proof. by destruct w. Qed.
Lemma tm_exec {A} w (f : conn -> option (A * conn)) : tame (exec w f).
Proof.
  apply tm_same; [done|]. intros W s. unfold exec.
  destruct (faults W (ticks s)) as [|[]|[]]; simpl; try destruct (f _) as [[a c]|]; simpl; rewrite ?trace_put; done.
Qed.
Lemma tm_send e : is_confirm e = false -> tame (send e).
Proof. intros H W b s. split; [done|]. exists [e]. split; [done|]. by constructor. Qed.
Lemma tm_status f : tame (put_status f).
Proof. intros W b s. split; [done|]. simpl. eexists [_]. split; [done|]. by constructor. Qed.
Lemma tm_modify f : (forall s, trace (f s) = trace s) -> tame (modify f).
Proof. intros H. apply tm_same; [done|]. intros W s. apply H. Qed.
Lemma tm_flag w b : tame (modify (put_flag w b)).
Proof. apply tm_modify. by destruct w. Qed.

Create HintDb tame.
Ltac tm :=
  repeat first
    [ solve [auto with tame nocore]
    | apply tm_ret | apply tm_panic | apply tm_exec | apply tm_status | apply tm_lift | apply tm_unwrapM
    | apply tm_unwrapD | apply tm_gets | apply tm_rows | apply tm_flag
    | apply tm_send; reflexivity
    | apply tm_bind; [|intros ?] | apply tm_fold; intros ? ?
    | progress unfold stmt, log, set_state, set_total, inc_done, inc_failed, set_show_progress, begin_editing,
        end_editing, is_in_transaction, exec_write
    | match goal with |- tame (match ?x with _ => _ end) => destruct x end
    | match goal with |- tame (if ?x then _ else _) => destruct x end ].

Lemma tm_begin w : tame (begin_if_needed w). Proof. unfold begin_if_needed. tm. Qed.
Lemma tm_commit w : tame (commit_if_needed w). Proof. unfold commit_if_needed. tm. Qed.
Global Hint Resolve tm_begin tm_commit : tame.
Lemma tm_get w k : tame (get_block w k). Proof. unfold get_block. tm. Qed.
Lemma tm_set w k d : tame (set_block w k d). Proof. unfold set_block. tm. Qed.
Lemma tm_delete w k : tame (delete_block w k). Proof. unfold delete_block. tm. Qed.
Lemma tm_iter w : tame (iter_rows w). Proof. unfold iter_rows. tm. Qed.
Lemma tm_next w : tame (next_row w). Proof. unfold next_row. tm. Qed.
Lemma tm_db_new w v : tame (db_new w v). Proof. unfold db_new. tm. Qed.
Lemma tm_vacuum w : tame (db_vacuum w). Proof. unfold db_vacuum. tm. Qed.
Global Hint Resolve tm_get tm_set tm_delete tm_iter tm_next tm_db_new tm_vacuum : tame.
Lemma tm_query w names a i p : tame (query_keys w names a i p). Proof. unfold query_keys. tm. Qed.
Global Hint Resolve tm_query : tame.
Lemma tm_edit l n a i p f : tame (edit_blocks l n a i p f). Proof. unfold edit_blocks, edit_block. tm. Qed.
Lemma tm_cached E w c k : tame (get_cached E w c k). Proof. unfold get_cached. tm. Qed.
Global Hint Resolve tm_edit tm_cached : tame.
Lemma tm_copy_from E w p o pos d c : tame (copy_from E w p o pos d c). Proof. unfold copy_from, copy_step. tm. Qed.
Lemma tm_clean_write E k b : tame (clean_write E k b). Proof. unfold clean_write. tm. Qed.
Lemma tm_copy_whole E k : tame (copy_whole E k). Proof. unfold copy_whole. tm. Qed.
Global Hint Resolve tm_copy_from tm_clean_write tm_copy_whole : tame.
Lemma tm_cmd E g : tame (cmd_func E g).
Proof.
  unfold cmd_func, clone, clone_step, delete_blocks, delete_step, delete_metadata, delete_objects, delete_timers,
    fill, replace_nodes, replace_in_inv, overlay, overlay_no_offset, overlay_step, overlay_part,
    overlay_with_offset, offset_step, set_meta_var, set_param2, vacuum.
  tm.
Qed.
Lemma tm_finish : tame finish. Proof. unfold finish. tm. Qed.
Lemma tm_open w p e1 e2 : tame (open_db w p e1 e2).
Proof.
  unfold open_db. apply tm_bind.
  - unfold open_map. by apply tm_ask.
  - intros [f|]; [|apply tm_ret]. apply tm_bind; [by apply tm_ask|]. intros. tm.
Qed.
Global Hint Resolve tm_cmd tm_finish tm_open : tame.
Lemma tm_open_input g : tame (open_input g).
Proof. unfold open_input. tm. by apply tm_modify. Qed.
Global Hint Resolve tm_open_input : tame.
