(** The progress shown to the user stays within its bounds, whatever faults happen *)
From Verif Require Import Sys SysProofs SpecRun CodecProofs Instance ArgProofs FaultProofs.

(** A status that can be shown *)
Definition in_range (x : status_t) : Prop := 0 <= blocks_done x <= blocks_total x.
Definition shown (s : sys) : Prop :=
  Forall (fun e => match e with TStatus x => in_range x | _ => True end) (trace s).
(** [k] of [n] blocks have been counted *)
Definition at_ (n k : Z) (s : sys) : Prop :=
  shown s /\ blocks_total (status s) = n /\ 0 <= blocks_done (status s) <= k /\ k <= n.

Definition moves {A} (n k k' : Z) (m : M A) : Prop :=
  forall W, hoare W (at_ n k) m (fun _ => at_ n k') shown.

Lemma p_ret {A} n k (a : A) : moves n k k (mret a).
Proof. intros W. by apply h_ret. Qed.
Lemma p_bind {A B} n k1 k2 k3 (m : M A) (f : A -> M B) :
  moves n k1 k2 m -> (forall a, moves n k2 k3 (f a)) -> moves n k1 k3 (m ≫= f).
Proof. intros Hm Hf W. eapply h_bind; [apply Hm|]. intros a. apply Hf. Qed.
Lemma p_panic {A} n k k' : moves n k k' (@panic A).
Proof. by intros W s [Hs _]. Qed.
Lemma p_ask {A} n k (f : world -> A) : moves n k k (ask f).
Proof. by intros W s Hs. Qed.
Lemma p_gets {A} n k (f : sys -> A) : moves n k k (gets f).
Proof. by intros W s Hs. Qed.
Lemma p_rows n k m : moves n k k (row_order m).
Proof. by intros W s Hs. Qed.
Lemma p_lift {A} n k (o : out A) : moves n k k (lift o).
Proof. destruct o; [apply p_ret|apply p_panic]. Qed.
Lemma p_unwrapM {A} n k (o : option A) : moves n k k (unwrapM o).
Proof. apply p_lift. Qed.
Lemma p_unwrapD {A} n k (r : dres A) : moves n k k (unwrapD r).
Proof. destruct r; [apply p_ret|apply p_panic]. Qed.
Lemma p_fold {A B} n (f : A -> B -> M A) l : (forall a x k, k < n -> moves n k (k + 1) (f a x)) ->
  forall a k, k + Z.of_nat (length l) <= n -> moves n k (k + Z.of_nat (length l)) (foldM f l a).
Proof.
  intros H. induction l as [|x l IH]; intros a k Hk; cbn [length foldM] in *.
  - rewrite Z.add_0_r. apply p_ret.
  - eapply p_bind; [apply H; lia|]. intros b.
    replace (k + Z.of_nat (S (length l))) with (k + 1 + Z.of_nat (length l)) by lia. apply IH. lia.
Qed.
Lemma p_fold_keep {A B} n k (f : A -> B -> M A) l : (forall a x, moves n k k (f a x)) ->
  forall a, moves n k k (foldM f l a).
Proof. intros H. induction l as [|x l IH]; intros a; simpl; [apply p_ret|]. eapply p_bind; [apply H|]. auto. Qed.

Lemma shown_put_conn w c s : shown (put_conn w c s) <-> shown s.
Proof. by destruct w. Qed.
Lemma p_exec {A} n k w (f : conn -> option (A * conn)) : moves n k k (exec w f).
Proof.
  intros W s Hs. unfold exec. destruct (faults W (ticks s)) as [|[]|[]].
  - destruct (f _) as [[a c']|]; [|done]. by destruct w.
  - by destruct w.
  - done.
  - destruct Hs as [Hs _]. destruct (f _) as [[a c']|]; [|done]. by destruct w.
  - destruct Hs as [Hs _]. by destruct (f _) as [[a c']|].
Qed.
Lemma p_stmt {A} n k (m : M (option A)) : moves n k k m -> moves n k k (stmt m).
Proof. intros H. eapply p_bind; [done|]. intros. apply p_ret. Qed.
Lemma shown_snoc e s t : trace t = trace s ++ [e] -> shown s ->
  match e with TStatus x => in_range x | _ => True end -> shown t.
Proof. unfold shown. intros -> Hs He. apply Forall_app. split; [done|]. by constructor. Qed.
Lemma p_send n k e : (match e with TStatus _ => False | _ => True end) -> moves n k k (send e).
Proof.
  intros He W s [Hs Hk]. split; [|done]. apply (shown_snoc e s); [done..|]. by destruct e.
Qed.
Lemma p_log n k lt m : moves n k k (log lt m).
Proof. by apply p_send. Qed.
Lemma p_status n k k' f :
  (forall x, blocks_total x = n -> 0 <= blocks_done x <= k -> k <= n ->
     blocks_total (f x) = n /\ 0 <= blocks_done (f x) <= k' /\ k' <= n) -> moves n k k' (put_status f).
Proof.
  intros Hf W s (Hs & Ht & Hd & Hk). destruct (Hf _ Ht Hd Hk) as (Ht' & Hd' & Hk').
  split; [|done]. apply (shown_snoc (TStatus (f (status s))) s); [done..|]. unfold in_range. lia.
Qed.
Lemma p_state n k x : moves n k k (set_state x).
Proof. eapply p_bind; [by apply p_status|]. intros. by apply p_send. Qed.
Lemma p_done n k : k < n -> moves n k (k + 1) inc_done.
Proof.
  intros Hk. apply p_status. intros x Ht Hd _. simpl. split; [done|]. unfold u64.
  pose proof (Z.mod_pos_bound (blocks_done x + 1) (2 ^ 64) ltac:(lia)).
  pose proof (Z.mod_le (blocks_done x + 1) (2 ^ 64) ltac:(lia) ltac:(lia)). lia.
Qed.
Lemma p_up n k k' {A} (m : M A) : k <= k' <= n -> moves n k k m -> moves n k k' m.
Proof.
  intros Hk H W s Hs. specialize (H W s Hs). destruct (m W s) as [[a| |] s']; [|done..].
  destruct H as (? & ? & ? & ?). repeat split; try done; lia.
Qed.
Lemma p_failed n k : moves n k k inc_failed.
Proof. by apply p_status. Qed.
Lemma p_begin n k w : moves n k k (begin_if_needed w).
Proof. eapply p_bind; [apply p_gets|]. intros []; [apply p_ret|]. apply p_stmt, p_exec. Qed.
Lemma p_get n k w key : moves n k k (get_block w key).
Proof.
  eapply p_bind; [apply p_begin|]. intros [|]; [|apply p_ret].
  eapply p_bind; [apply p_stmt, p_exec|]. intros [[|]|]; apply p_ret.
Qed.
Lemma p_set n k w key d : moves n k k (set_block w key d).
Proof. eapply p_bind; [apply p_begin|]. intros [|]; [|apply p_ret]. apply p_stmt, p_exec. Qed.
Lemma p_delete n k w key : moves n k k (delete_block w key).
Proof. eapply p_bind; [apply p_begin|]. intros [|]; [|apply p_ret]. apply p_stmt, p_exec. Qed.
Lemma p_next n k w : moves n k k (next_row w).
Proof. eapply p_bind; [apply p_stmt, p_exec|]. intros. apply p_unwrapD. Qed.
Lemma p_iter n k w : moves n k k (iter_rows w).
Proof.
  eapply p_bind; [apply p_begin|]. intros. eapply p_bind; [apply p_unwrapD|]. intros.
  eapply p_bind; [apply p_stmt, p_exec|]. intros. eapply p_bind; [apply p_unwrapD|]. intros. apply p_rows.
Qed.

(** While searching, nothing has been counted yet *)
Definition waits (s : sys) : Prop := exists n, at_ n 0 s.
Lemma w_of {A} (m : M A) : (forall n, moves n 0 0 m) -> forall W, hoare W waits m (fun _ => waits) shown.
Proof.
  intros H W s [n Hs]. specialize (H n W s Hs). destruct (m W s) as [[a| |] s']; [by exists n|done..].
Qed.
Lemma w_total c W : 0 <= c -> hoare W waits (set_total c) (fun _ => at_ c 0) shown.
Proof.
  intros Hc s [n (Hs & Ht & Hd & Hk)]. split; [|repeat split; simpl; done || lia].
  eapply shown_snoc with (s := s); [done..|]. unfold in_range. simpl. lia.
Qed.
Lemma w_query w names a inv_ partial W :
  hoare W waits (query_keys w names a inv_ partial) (fun keys => at_ (Z.of_nat (length keys)) 0) shown.
Proof.
  unfold query_keys. eapply h_bind; [apply w_of; intros; apply p_state|]. intros ?. cbn beta.
  eapply h_bind with (Q1 := fun _ => waits).
  - destruct (_ || _); [|by apply h_ret]. eapply h_bind; [apply w_of; intros; apply p_iter|]. intros rs. cbn beta.
    eapply h_bind with (Q1 := fun _ => waits).
    + generalize (0, @nil Z). induction rs as [|x rs IH]; intros st; simpl; [by apply h_ret|].
      eapply h_bind with (Q1 := fun _ => waits); [|intros st'; apply IH].
      unfold query_step. eapply h_bind; [apply w_of; intros; apply p_next|]. intros ?. cbn beta.
      destruct (row_match _ _ _ _ _ _); [|by apply h_ret].
      eapply h_bind with (Q1 := fun _ => waits); [|intros; by apply h_ret].
      destruct (_ =? 0); [|by apply h_ret]. intros s Hs.
      pose proof (w_total (Z.of_nat (length (st.2 ++ [x.1]))) W ltac:(lia) s Hs) as H.
      destruct (set_total _ W s) as [[?| |] s']; [by eexists|done..].
    + intros st. eapply h_bind; [apply w_of; intros; apply p_next|]. intros ?. cbn beta. by apply h_ret.
  - intros keys. eapply h_bind; [apply w_total; lia|]. intros ?. cbn beta.
    eapply h_bind; [apply p_state|]. intros ?. cbn beta. by apply h_ret.
Qed.

(** Commands *)
Definition counts_well {A} (m : M A) : Prop := forall W, hoare W waits m (fun _ => shown) shown.
Lemma c_query {B} w names a inv_ partial (f : list Z -> M B) :
  (forall keys, exists k', moves (Z.of_nat (length keys)) 0 k' (f keys)) ->
  counts_well (query_keys w names a inv_ partial ≫= f).
Proof.
  intros Hf W. eapply h_bind; [apply w_query|]. intros keys. cbn beta. destruct (Hf keys) as [k' H].
  intros s Hs. specialize (H W s Hs). destruct (f keys W s) as [[?| |] s']; [|done..]. by destruct H.
Qed.
Lemma c_bind {A B} (m : M A) (f : A -> M B) : (forall n, moves n 0 0 m) -> (forall a, counts_well (f a)) ->
  counts_well (m ≫= f).
Proof. intros Hm Hf W. eapply h_bind; [by apply w_of|]. intros a. apply Hf. Qed.

Lemma c_fold {A} (f : A -> Z -> M A) keys a :
  (forall n a x k, k < n -> moves n k (k + 1) (f a x)) ->
  moves (Z.of_nat (length keys)) 0 (Z.of_nat (length keys)) (foldM f keys a).
Proof. intros H. apply (p_fold _ _ keys) with (k := 0); [|lia]. intros. by apply H. Qed.

Ltac pm t := eapply p_bind; [t|]; intros ?; cbn beta.
Lemma c_edit_blocks late names a inv_ partial body W :
  hoare W waits (edit_blocks late names a inv_ partial body) (fun _ s => exists n, at_ n n s) shown.
Proof.
  unfold edit_blocks. eapply h_bind; [apply w_query|]. intros keys. cbn beta.
  eapply h_bind; [apply p_state|]. intros ?. cbn beta.
  eapply h_bind; [apply c_fold|].
  - intros n c key k Hk. unfold edit_block. destruct late.
    + pm ltac:(apply p_ret). pm ltac:(apply p_get). pm ltac:(apply p_unwrapD).
      eapply p_bind; [apply p_lift|]. intros ec. cbn beta.
      eapply p_bind; [|intros; apply p_ret]. destruct ec.1.
      * eapply p_up; [|apply p_failed]. lia.
      * by apply p_done.
      * pm ltac:(apply p_set). pm ltac:(apply p_unwrapD). by apply p_done.
    + pm ltac:(by apply p_done). pm ltac:(apply p_get). pm ltac:(apply p_unwrapD).
      eapply p_bind; [apply p_lift|]. intros ec. cbn beta.
      eapply p_bind; [|intros; apply p_ret]. destruct ec.1; [apply p_failed|apply p_ret|].
      pm ltac:(apply p_set). pm ltac:(apply p_unwrapD). apply p_ret.
  - intros c. cbn beta. eapply h_bind; [apply p_state|]. intros ?. cbn beta. apply h_ret. intros s Hs. by eexists.
Qed.
Lemma c_edits late names a inv_ partial body lt m :
  counts_well (c ← edit_blocks late names a inv_ partial body; log lt (m c)).
Proof.
  intros W. eapply h_bind; [apply c_edit_blocks|]. intros c. cbn beta. intros s [n Hs].
  pose proof (p_log n n lt (m c) W s Hs) as H. destruct (log _ _ W s) as [[?| |] s']; [|done..]. by destruct H.
Qed.

(** Copying commands *)
Lemma mapO_length {A B} (f : A -> out B) l l' : mapO f l = Ret l' -> length l' = length l.
Proof.
  revert l'. induction l as [|x l IH]; intros l' H; simpl in H; [by inv H|].
  destruct (f x) as [y|]; [|done]. simpl in H. destruct (mapO f l) as [t|]; [|done]. simpl in H. inv H.
  simpl. by rewrite (IH t).
Qed.
Lemma sort_keys_length o keys l : sort_keys o keys = Ret l -> length l = length keys.
Proof.
  unfold sort_keys. intros H. destruct (mapO _ keys) as [t|] eqn:Em; [|done]. simpl in H. inv H.
  rewrite fmap_length. rewrite (Permutation_length (merge_sort_Permutation _ _)). by eapply mapO_length.
Qed.
Lemma p_cached n k E w c key : moves n k k (get_cached E w c key).
Proof. unfold get_cached. destruct (cache_get c key); [apply p_ret|]. pm ltac:(apply p_get). apply p_ret. Qed.
Lemma p_copy_from n k E w part ofs pos dst c : moves n k k (copy_from E w part ofs pos dst c).
Proof.
  unfold copy_from. pm ltac:(apply p_unwrapM). apply p_fold_keep. intros st p. unfold copy_step.
  destruct (negb _); [apply p_ret|]. pm ltac:(apply p_lift).
  eapply p_bind; [apply p_cached|]. intros rc. cbn beta. destruct rc.1 as [[|]|]; [|apply p_ret..].
  pm ltac:(apply p_lift). apply p_ret.
Qed.
Lemma p_clean_write n k E key b : moves n k k (clean_write E key b).
Proof. unfold clean_write. pm ltac:(apply p_lift). pm ltac:(apply p_set). apply p_unwrapD. Qed.
Lemma p_copy_whole n k E key : moves n k k (copy_whole E key).
Proof.
  unfold copy_whole. pm ltac:(apply p_get). pm ltac:(apply p_unwrapD). destruct (is_valid_generated _ _); [|apply p_ret].
  pm ltac:(apply p_set). apply p_unwrapD.
Qed.

Lemma c_cmd E g : counts_well (cmd_func E g).
Proof.
  unfold cmd_func. destruct (acmd g).
  - unfold clone. apply c_bind; [intros; apply p_unwrapM|]. intros. apply c_bind; [intros; apply p_unwrapM|]. intros.
    apply c_query. intros keys.
    assert (forall l, length l = length keys -> moves (Z.of_nat (length keys)) 0 (Z.of_nat (length keys))
      (begin_editing ;; foldM (clone_step E (area_add a a0) a0) l (cache_new BLOCK_CACHE_SIZE) ;; end_editing)) as H.
    { intros l <-. pm ltac:(apply p_state). pm ltac:(apply c_fold); [|apply p_state].
      intros ? c key k Hk. unfold clone_step. pm ltac:(by apply p_done).
      eapply p_bind; [apply p_cached|]. intros rc. cbn beta. destruct rc.1 as [[|]|]; [| |apply p_ret].
      + pm ltac:(apply p_unwrapM). pm ltac:(apply p_copy_from). pm ltac:(apply p_clean_write). apply p_ret.
      + pm ltac:(apply p_failed). apply p_ret. }
    destruct (sort_keys a0 keys) as [l|] eqn:El; simpl; [|exists 0; apply p_panic].
    eexists. exact (H l (sort_keys_length _ _ _ El)).
  - unfold delete_blocks. apply c_query. intros keys. eexists. pm ltac:(apply p_state).
    pm ltac:(apply c_fold); [|apply p_state]. intros n1 u1 key k Hk. unfold delete_step.
    pm ltac:(by apply p_done). pm ltac:(apply p_delete). apply p_unwrapD.
  - apply c_edits.
  - apply c_edits.
  - apply c_edits.
  - unfold fill. apply c_bind; [intros; apply p_unwrapM|]. intros. apply c_bind; [intros; apply p_unwrapM|]. intros. apply c_edits.
  - unfold replace_nodes. apply c_bind; [intros; apply p_unwrapM|]. intros. apply c_bind; [intros; apply p_unwrapM|]. intros. apply c_edits.
  - unfold replace_in_inv. apply c_bind; [intros; apply p_unwrapM|]. intros. apply c_edits.
  - unfold overlay. destruct (bool_decide _).
    + unfold overlay_no_offset. apply c_bind; [intros; apply p_gets|]. intros has.
      apply c_bind; [intros; destruct has; [apply p_ret|apply p_panic]|]. intros.
      apply c_query. intros keys. eexists. pm ltac:(apply p_state). pm ltac:(apply c_fold); [|apply p_state].
      intros n1 u1 key k Hk. unfold overlay_step. pm ltac:(by apply p_done).
      destruct (aarea g); [|apply p_copy_whole]. destruct (_ || _); [apply p_copy_whole|].
      unfold overlay_part. eapply p_bind; [apply p_get|]. intros r. cbn beta.
      destruct (keep _ _); [|apply p_ret]. pm ltac:(apply p_get). pm ltac:(apply p_unwrapD).
      destruct (deserialize _ _); [|apply p_failed]. destruct (deserialize _ _); [|apply p_failed].
      pm ltac:(apply p_lift). apply p_clean_write.
    + unfold overlay_with_offset. apply c_bind; [intros; apply p_unwrapM|]. intros.
      apply c_bind; [intros; apply p_gets|]. intros has.
      apply c_bind; [intros; destruct has; [apply p_ret|apply p_panic]|]. intros.
      apply c_query. intros keys. eexists. pm ltac:(apply p_state). pm ltac:(apply c_fold); [|apply p_state].
      intros ? c key k Hk. unfold offset_step. pm ltac:(by apply p_done).
      eapply p_bind; [apply p_get|]. intros r. cbn beta. destruct (keep _ _); [|apply p_ret].
      destruct (deserialize _ _); [|pm ltac:(apply p_failed); apply p_ret].
      pm ltac:(apply p_lift). pm ltac:(apply p_copy_from). pm ltac:(apply p_clean_write). apply p_ret.
  - unfold set_meta_var. apply c_bind; [intros; apply p_unwrapM|]. intros. apply c_edits.
  - unfold set_param2. apply c_bind; [intros; apply p_unwrapM|]. intros. apply c_edits.
  - unfold vacuum. apply c_bind; [intros; apply p_log|]. intros. apply c_bind; [intros; by apply p_status|]. intros.
    apply c_bind; [intros; apply p_state|]. intros. apply c_bind.
    { intros n. unfold db_vacuum, commit_if_needed. eapply p_bind.
      - eapply p_bind; [apply p_gets|]. intros []; [|apply p_ret]. eapply p_bind; [apply p_stmt, p_exec|].
        intros [|]; [|apply p_ret]. eapply p_bind; [|intros; apply p_ret]. by intros W s Hs.
      - intros [|]; [|apply p_ret]. apply p_stmt, p_exec. }
    intros r. apply c_bind; [intros; apply p_state|]. intros. intros W s [n Hs].
    destruct r; (match goal with |- context [log ?lt ?m] => pose proof (p_log n 0 lt m W s Hs) as H end;
      destruct (log _ _ W s) as [[?| |] s']; [|done..]; by destruct H).
Qed.

(** ** The whole run *)
Lemma s_keep {A} (m : M A) : (forall n k, moves n k k m) -> forall W, hoare W waits m (fun _ => waits) shown.
Proof. intros H. apply w_of. intros. apply H. Qed.
Lemma sh_exec {A} w (f : conn -> option (A * conn)) : keeps shown (exec w f).
Proof.
  intros W s Hs. unfold exec. destruct (faults W (ticks s)) as [|[]|[]]; try (destruct (f _) as [[a c']|]); by destruct w.
Qed.
Lemma sh_log lt m : keeps shown (log lt m).
Proof. intros W s Hs. by apply (shown_snoc (TLog lt m) s). Qed.
Lemma sh_finish : keeps shown finish.
Proof.
  unfold finish. apply k_bind; [apply k_gets|]. intros. apply k_bind; [destruct (0 <? _); [apply sh_log|apply k_ret]|].
  intros. apply k_bind; [apply k_gets|]. intros f. apply k_bind.
  - destruct f; [|apply k_ret]. apply k_bind; [apply sh_log|]. intros. apply k_bind; [|intros; apply k_ret].
    unfold commit_if_needed. apply k_bind; [apply k_gets|]. intros []; [|apply k_ret].
    apply k_bind; [apply k_bind; [apply sh_exec|intros; apply k_ret]|]. intros [|]; [|apply k_ret].
    apply k_bind; [by intros W s Hs|]. intros. apply k_ret.
  - intros [|]; [apply k_ret|]. apply k_bind; [apply sh_log|]. intros. apply k_ret.
Qed.
Lemma p_open n k w p e1 e2 : moves n k k (open_db w p e1 e2).
Proof.
  unfold open_db. eapply p_bind; [apply p_ask|]. intros [|]; [|apply p_ret]. pm ltac:(apply p_ask).
  eapply p_bind; [|intros; apply p_ret]. unfold db_new. eapply p_bind; [apply p_exec|]. intros [|]; [|apply p_ret].
  eapply p_bind; [apply p_exec|]. intros [[]|]; [|apply p_ret..]. eapply p_bind; [|intros; apply p_ret].
  intros W s Hs. by destruct w.
Qed.
Lemma p_open_input n k g : moves n k k (open_input g).
Proof.
  unfold open_input. destruct (input_map_path g); [|apply p_ret]. eapply p_bind; [apply p_open|].
  intros [|]; [apply p_ret|]. eapply p_bind with (k2 := k); [by intros W s Hs|]. intros. apply p_ret.
Qed.
Lemma p_consent n k g w : moves n k k (consent g w).
Proof.
  unfold consent. pm ltac:(destruct (do_confirmation g); [apply p_log|apply p_ret]).
  pm ltac:(destruct w; [apply p_log|apply p_ret]). destruct (do_confirmation g); [|apply p_ret].
  unfold get_confirmation. pm ltac:(by apply p_send). apply p_ask.
Qed.
Lemma waits_shown s : waits s -> shown s.
Proof. by intros [n [H _]]. Qed.

Lemma c_ret {A} (a : A) : counts_well (mret a).
Proof. intros W s Hs. by apply waits_shown. Qed.
Lemma c_compute E g : counts_well (compute_thread E g).
Proof.
  unfold compute_thread. destruct (verify_args g); [apply c_ret|]. apply c_bind; [intros; apply p_lift|]. intros v.
  assert (counts_well (e1 ← open_db Main (map_path g) EOpenMain EBadMain;
      match e1 with
      | Some e => mret (Some e)
      | None => e2 ← open_input g;
        match e2 with
        | Some e => mret (Some e)
        | None => run_command E g (match v with AWarning w => Some w | _ => None end)
        end
      end)) as H; [|destruct v; [exact H|exact H|apply c_ret]].
  apply c_bind; [intros; apply p_open|]. intros [|]; [apply c_ret|].
  apply c_bind; [intros; apply p_open_input|]. intros [|]; [apply c_ret|].
  unfold run_command. apply c_bind; [intros; apply p_consent|]. intros []; [|apply c_ret].
  intros W. eapply h_bind; [apply c_cmd|]. intros ?. cbn beta. apply sh_finish.
Qed.
Lemma progress_in_range E g W main input x :
  TStatus x ∈ trace (thread_main E g W (start main input)).2 -> 0 <= blocks_done x <= blocks_total x.
Proof.
  assert (hoare W waits (thread_main E g) (fun _ => shown) shown) as H.
  { unfold thread_main. eapply h_bind; [apply c_compute|]. intros [|]; [apply sh_log|]. by apply h_ret. }
  assert (waits (start main input)) as Hw.
  { exists 0. repeat split; [|done..]. constructor. }
  specialize (H _ Hw). unfold shown in H.
  destruct (thread_main E g W (start main input)) as [[?| |] s]; simpl in *;
    rewrite Forall_forall in H; intros Hx; exact (H _ Hx).
Qed.
