(** The states and numbers that the compute thread of a finished run announces *)
From Verif Require Import Sys SysProofs SpecRun CodecProofs Instance FaultProofs ProgressProofs UiProofs.
From Verif Require Import SpecShow.

Definition stat_of (l : list tev) : status_t :=
  default status_new (last (omap (fun e => match e with TStatus x => Some x | _ => None end) l)).
(** How many blocks are reported as skipped, and whether the run is finished *)
Definition mark (m : msg) : option (option Z) :=
  match m with MSkipped n => Some (Some n) | MDone => Some None | _ => None end.
Definition marks (l : list tev) : list (option Z) := omap (fun x => mark x.2) (logged l).
Definition marked (e : tev) : list (option Z) := match e with TLog _ m => o2l (mark m) | _ => [] end.
Definition sle (x y : status_t) : Prop := blocks_total x <= blocks_total y /\ blocks_done x <= blocks_done y.

(** Everything that is announced up to now *)
Record told (sp : bool) (n k : Z) (l : list tev) : Prop := {
  t_mono : forall l1 l2, l1 `prefix_of` l2 -> l2 `prefix_of` l -> sle (stat_of l1) (stat_of l2);
  t_show : forall l1, l1 `prefix_of` l -> (1 <= length (states l1))%nat -> show_progress (stat_of l1) = sp;
  t_total : forall l1, l1 `prefix_of` l -> (2 <= length (states l1))%nat -> blocks_total (stat_of l1) = n;
  t_done : forall l1, l1 `prefix_of` l -> (4 <= length (states l1))%nat -> blocks_done (stat_of l1) = k }.

Lemma stat_app l e : stat_of (l ++ [e]) = match e with TStatus x => x | _ => stat_of l end.
Proof. unfold stat_of. rewrite omap_app. destruct e; simpl; rewrite ?app_nil_r, ?last_snoc; done. Qed.
Lemma states_snoc l e : states (l ++ [e]) = states l ++ match e with TState x => [x] | _ => [] end.
Proof. rewrite states_app. by destruct e. Qed.
Lemma marks_snoc l e : marks (l ++ [e]) = marks l ++ marked e.
Proof. unfold marks, logged. rewrite !omap_app. f_equal. by destruct e as [? []| | |]. Qed.

Lemma prefix_snoc {A} (l1 l : list A) e : l1 `prefix_of` l ++ [e] -> l1 = l ++ [e] \/ l1 `prefix_of` l.
Proof.
  intros [k Hk]. destruct k as [|y k _] using rev_ind; [left; by rewrite app_nil_r in Hk|].
  rewrite app_assoc in Hk. apply app_inj_tail in Hk as [-> _]. right. by eexists.
Qed.

Lemma told_snoc sp n k l e : told sp n k l -> sle (stat_of l) (stat_of (l ++ [e])) ->
  ((1 <= length (states (l ++ [e])))%nat -> show_progress (stat_of (l ++ [e])) = sp) ->
  ((2 <= length (states (l ++ [e])))%nat -> blocks_total (stat_of (l ++ [e])) = n) ->
  ((4 <= length (states (l ++ [e])))%nat -> blocks_done (stat_of (l ++ [e])) = k) -> told sp n k (l ++ [e]).
Proof.
  intros [Hm Hs Ht Hd] H0 H1 H2 H4. constructor.
  - intros l1 l2 H12 H2l. apply prefix_snoc in H2l as [->|H2l]; [|by apply Hm].
    apply prefix_snoc in H12 as [->|H1l]; [split; lia|].
    destruct (Hm l1 l H1l) as [??]; [done|]. destruct H0. split; lia.
  - intros l1 [->|H]%prefix_snoc; auto.
  - intros l1 [->|H]%prefix_snoc; auto.
  - intros l1 [->|H]%prefix_snoc; auto.
Qed.
Lemma told_n sp n n' k l : (length (states l) < 2)%nat -> told sp n k l -> told sp n' k l.
Proof.
  intros Hl [Hm Hs Ht Hd]. constructor; [done..| |done]. intros l1 [r Hr] H2. rewrite Hr, states_app, app_length in Hl. lia.
Qed.
Lemma told_k sp n k k' l : (length (states l) < 4)%nat -> told sp n k l -> told sp n k' l.
Proof.
  intros Hl [Hm Hs Ht Hd]. constructor; [done..|]. intros l1 [r Hr] H2. rewrite Hr, states_app, app_length in Hl. lia.
Qed.
Lemma told_sp sp sp' n k l : (length (states l) < 1)%nat -> told sp n k l -> told sp' n k l.
Proof.
  intros Hl [Hm Hs Ht Hd]. constructor; [done| |done..]. intros l1 [r Hr] H2. rewrite Hr, states_app, app_length in Hl. lia.
Qed.

(** The state of the compute thread: announced states [sts], status [x], marks [sk] *)
Definition at3 (sp : bool) (n k : Z) (sts : list inst_state) (sk : list (option Z)) (x : status_t) (s : sys) : Prop :=
  status s = x /\ stat_of (trace s) = x /\ states (trace s) = sts /\ marks (trace s) = sk /\ told sp n k (trace s).

Definition nil_ : sys -> Prop := fun _ => True.
(** Actions that announce nothing *)
Definition mute {A} (m : M A) : Prop := forall W sp n k sts sk x,
  hoare W (at3 sp n k sts sk x) m (fun _ => at3 sp n k sts sk x) nil_.
Lemma mu_ret {A} (a : A) : mute (mret a).
Proof. intros W sp n k sts sk x. by apply h_ret. Qed.
Lemma mu_bind {A B} (m : M A) (f : A -> M B) : mute m -> (forall a, mute (f a)) -> mute (m ≫= f).
Proof. intros Hm Hf W sp n k sts sk x. eapply h_bind; [apply Hm|]. intros a. apply Hf. Qed.
Lemma mu_panic {A} : mute (@panic A).
Proof. by intros W sp n k sts sk x s Hs. Qed.
Lemma mu_ask {A} (f : world -> A) : mute (ask f).
Proof. by intros W sp n k sts sk x s Hs. Qed.
Lemma mu_gets {A} (f : sys -> A) : mute (gets f).
Proof. by intros W sp n k sts sk x s Hs. Qed.
Lemma mu_rows m : mute (row_order m).
Proof. by intros W sp n k sts sk x s Hs. Qed.
Lemma mu_lift {A} (o : out A) : mute (lift o).
Proof. destruct o; [apply mu_ret|apply mu_panic]. Qed.
Lemma mu_unwrapD {A} (r : dres A) : mute (unwrapD r).
Proof. destruct r; [apply mu_ret|apply mu_panic]. Qed.
Lemma mu_fold {A B} (f : A -> B -> M A) l : (forall a x, mute (f a x)) -> forall a, mute (foldM f l a).
Proof. intros H. induction l as [|x l IH]; intros a; simpl; [apply mu_ret|]. apply mu_bind; auto. Qed.
Lemma at_conn sp n k sts sk x w c s : at3 sp n k sts sk x s -> at3 sp n k sts sk x (put_conn w c s).
Proof. by destruct w. Qed.
Lemma mu_exec {A} w (f : conn -> option (A * conn)) : mute (exec w f).
Proof.
  intros W sp n k sts sk x s Hs. unfold exec. destruct (faults W (ticks s)) as [|[]|[]].
  - destruct (f _) as [[a c']|]; [|done]. by apply at_conn.
  - by apply at_conn.
  - done.
  - done.
  - done.
Qed.
Lemma mu_flag w b : mute (modify (put_flag w b)).
Proof. intros W sp n k sts sk x s Hs. by destruct w. Qed.
Lemma mu_idb : mute (modify (fun s => Sys (db s) (idb s) true (ticks s) (status s) (trace s))).
Proof. by intros W sp n k sts sk x s Hs. Qed.
Definition loud (e : tev) : Prop :=
  match e with TStatus _ | TState _ => True | e => marked e <> [] end.
Lemma at_send e sp n k sts sk x s : (match e with TStatus _ | TState _ => False | _ => True end) ->
  at3 sp n k sts sk x s -> at3 sp n k sts (sk ++ marked e) x
    (Sys (db s) (idb s) (has_idb s) (ticks s) (status s) (trace s ++ [e])).
Proof.
  intros He (H1 & H2 & H3 & H4 & Ht). assert (stat_of (trace s ++ [e]) = stat_of (trace s)) as Es by (rewrite stat_app; by destruct e).
  assert (states (trace s ++ [e]) = states (trace s)) as Et.
  { rewrite states_snoc. destruct e; try done; apply app_nil_r. }
  unfold at3. cbn [status trace]. split; [done|]. split; [congruence|]. split; [congruence|].
  split; [by rewrite marks_snoc, H4|].
  apply told_snoc; [done|by rewrite Es; split; lia|..]; rewrite Es, Et; intros; by apply Ht.
Qed.
Lemma mu_send e : ~ loud e -> mute (send e).
Proof.
  intros He W sp n k sts sk x s Hs. cbn. apply (at_send e) in Hs; [|destruct e; try done; by apply He].
  assert (marked e = []) as Em by (destruct (marked e) eqn:Em; [done|]; destruct He; destruct e; cbn in *; congruence).
  by rewrite Em, app_nil_r in Hs.
Qed.
Lemma mu_log lt m : mark m = None -> mute (log lt m).
Proof. intros Hm. apply mu_send. cbn. rewrite Hm. intros []. done. Qed.

Create HintDb mute.
Ltac mu :=
  repeat first
    [ solve [auto with mute nocore]
    | apply mu_ret | apply mu_panic | apply mu_exec | apply mu_lift
    | apply mu_unwrapD | apply mu_gets | apply mu_ask | apply mu_rows | apply mu_flag | apply mu_idb
    | apply mu_log; reflexivity
    | apply mu_send; cbn; tauto
    | apply mu_bind; [|intros ?] | apply mu_fold; intros ? ?
    | progress unfold stmt, is_in_transaction, exec_write, unwrapM
    | match goal with |- mute (match ?x with _ => _ end) => destruct x end
    | match goal with |- mute (if ?x then _ else _) => destruct x end ].
Lemma mu_begin w : mute (begin_if_needed w). Proof. unfold begin_if_needed. mu. Qed.
Lemma mu_commit w : mute (commit_if_needed w). Proof. unfold commit_if_needed. mu. Qed.
Global Hint Resolve mu_begin mu_commit : mute.
Lemma mu_get w k : mute (get_block w k). Proof. unfold get_block. mu. Qed.
Lemma mu_set w k d : mute (set_block w k d). Proof. unfold set_block. mu. Qed.
Lemma mu_delete w k : mute (delete_block w k). Proof. unfold delete_block. mu. Qed.
Lemma mu_db_new w v : mute (db_new w v). Proof. unfold db_new. mu. Qed.
Lemma mu_dbvac w : mute (db_vacuum w). Proof. unfold db_vacuum. mu. Qed.
Lemma mu_next w : mute (next_row w). Proof. unfold next_row. mu. Qed.
Global Hint Resolve mu_get mu_set mu_delete mu_db_new mu_dbvac mu_next : mute.
Lemma mu_open w p e1 e2 : mute (open_db w p e1 e2). Proof. unfold open_db, open_map. mu. Qed.
Global Hint Resolve mu_open : mute.
Lemma mu_open_input g : mute (open_input g). Proof. unfold open_input. mu. Qed.
Lemma mu_consent g w : (forall m, w = Some m -> mark m = None) -> mute (consent g w).
Proof.
  intros Hw. unfold consent, get_confirmation. apply mu_bind; [mu|]. intros ?. apply mu_bind; [|intros; mu].
  destruct w as [m|]; [|mu]. apply mu_log. by apply Hw.
Qed.
Lemma mu_cached E w c key : mute (get_cached E w c key). Proof. unfold get_cached. mu. Qed.
Global Hint Resolve mu_open_input mu_cached : mute.
Lemma mu_copy_from E w part ofs pos dst c : mute (copy_from E w part ofs pos dst c).
Proof. unfold copy_from, copy_step. mu. Qed.
Lemma mu_clean_write E key b : mute (clean_write E key b). Proof. unfold clean_write. mu. Qed.
Lemma mu_copy_whole E key : mute (copy_whole E key). Proof. unfold copy_whole. mu. Qed.
Global Hint Resolve mu_copy_from mu_clean_write mu_copy_whole : mute.

(** ** Announcing *)
Lemma told_here sp n k l : told sp n k l -> sle (stat_of l) (stat_of l).
Proof. intros _. split; lia. Qed.
Lemma h_put W sp n k sts sk x f : sle x (f x) ->
  ((1 <= length sts)%nat -> show_progress (f x) = sp) -> ((2 <= length sts)%nat -> blocks_total (f x) = n) ->
  ((4 <= length sts)%nat -> blocks_done (f x) = k) ->
  hoare W (at3 sp n k sts sk x) (put_status f) (fun _ => at3 sp n k sts sk (f x)) nil_.
Proof.
  intros Hx H1 H2 H4 s (E1 & E2 & E3 & E4 & Ht). unfold put_status, modify. cbn beta iota zeta.
  unfold at3. cbn [status trace]. rewrite E1.
  assert (states (trace s ++ [TStatus (f x)]) = sts) as Es by (rewrite states_snoc; simpl; by rewrite app_nil_r).
  split; [done|]. split; [by rewrite stat_app|]. split; [done|]. split; [rewrite marks_snoc; simpl; by rewrite app_nil_r|].
  apply told_snoc; [done|..]; rewrite ?Es, ?stat_app, ?E2; done.
Qed.
Definition in_state (x : status_t) (st : inst_state) : status_t :=
  Status (show_progress x) (blocks_total x) (blocks_done x) (blocks_failed x) st.
Lemma h_state W sp n k sts sk x st : show_progress x = sp ->
  ((1 <= length sts)%nat -> blocks_total x = n) -> ((3 <= length sts)%nat -> blocks_done x = k) ->
  hoare W (at3 sp n k sts sk x) (set_state st) (fun _ => at3 sp n k (sts ++ [st]) sk (in_state x st)) nil_.
Proof.
  intros H1 H2 H4. unfold set_state. eapply h_bind.
  - apply h_put; [split; cbn; lia|done|intros; apply H2; lia|intros; apply H4; lia].
  - intros ? s (E1 & E2 & E3 & E4 & Ht). fold (in_state x st) in *. unfold send, modify. cbn beta iota zeta.
    unfold at3. cbn [status trace].
    assert (states (trace s ++ [TState st]) = sts ++ [st]) as Es by (rewrite states_snoc; by rewrite E3).
    split; [done|]. split; [by rewrite stat_app|]. split; [done|]. split; [rewrite marks_snoc; simpl; by rewrite app_nil_r|].
    apply told_snoc; [done|..]; rewrite ?Es, ?stat_app, ?E2; rewrite ?app_length; cbn; intros.
    + split; lia.
    + done.
    + apply H2. lia.
    + apply H4. lia.
Qed.

Lemma at_n sp n n' k sts sk x s : (length sts < 2)%nat -> at3 sp n k sts sk x s -> at3 sp n' k sts sk x s.
Proof. intros Hl (H1 & H2 & H3 & H4 & Ht). do 4 (split; [done|]). eapply told_n; [by rewrite H3|exact Ht]. Qed.
Lemma at_k sp n k k' sts sk x s : (length sts < 4)%nat -> at3 sp n k sts sk x s -> at3 sp n k' sts sk x s.
Proof. intros Hl (H1 & H2 & H3 & H4 & Ht). do 4 (split; [done|]). eapply told_k; [by rewrite H3|exact Ht]. Qed.
Lemma at_sp sp sp' n k sts sk x s : (length sts < 1)%nat -> at3 sp n k sts sk x s -> at3 sp' n k sts sk x s.
Proof. intros Hl (H1 & H2 & H3 & H4 & Ht). do 4 (split; [done|]). eapply told_sp; [by rewrite H3|exact Ht]. Qed.

(** ** What is read before anything is written *)
Definition neat (ms : which -> mapdata) (s : sys) : Prop := forall w,
  disk (cn (get_db w s)) = ms w /\ forall m, work (cn (get_db w s)) = Some m -> m = ms w.
Definition keeps {A} (m : M A) : Prop := forall W ms, hoare W (neat ms) m (fun _ => neat ms) nil_.
Lemma ke_ret {A} (a : A) : keeps (mret a). Proof. intros W ms. by apply h_ret. Qed.
Lemma ke_bind {A B} (m : M A) (f : A -> M B) : keeps m -> (forall a, keeps (f a)) -> keeps (m ≫= f).
Proof. intros Hm Hf W ms. eapply h_bind; [apply Hm|]. intros a. apply Hf. Qed.
Lemma ke_panic {A} : keeps (@panic A). Proof. by intros W ms s Hs. Qed.
Lemma ke_ask {A} (f : world -> A) : keeps (ask f). Proof. by intros W ms s Hs. Qed.
Lemma ke_gets {A} (f : sys -> A) : keeps (gets f). Proof. by intros W ms s Hs. Qed.
Lemma ke_lift {A} (o : out A) : keeps (lift o). Proof. destruct o; [apply ke_ret|apply ke_panic]. Qed.
Lemma ke_unwrapD {A} (r : dres A) : keeps (unwrapD r). Proof. destruct r; [apply ke_ret|apply ke_panic]. Qed.
Lemma neat_conn ms w c s : neat ms s -> disk c = ms w -> (forall m, work c = Some m -> m = ms w) -> neat ms (put_conn w c (tick s)).
Proof. intros Hs H1 H2 w'. specialize (Hs w'). by destruct w, w'. Qed.
Lemma ke_begin_st w : keeps (exec w st_begin).
Proof.
  intros W ms s Hs. unfold exec. destruct (Hs w) as [H1 H2]. destruct (faults W (ticks s)) as [|[]|[]].
  - unfold st_begin. destruct (work _) eqn:Et; [exact Hs|]. apply neat_conn; [done|done|]. by intros m [= <-].
  - by apply neat_conn.
  - exact Hs.
  - exact Logic.I.
  - exact Logic.I.
Qed.
Lemma neat_read {A} w (f : mapdata -> A) W ms s : neat ms s ->
  match exec w (st_read f) W s with
  | (Done r, s') => neat ms s' /\ forall a, r = Some a -> a = f (ms w)
  | _ => True
  end.
Proof.
  intros Hs. unfold exec. destruct (Hs w) as [H1 H2]. destruct (faults W (ticks s)) as [|[]|[]].
  - unfold st_read. split; [by apply neat_conn|]. intros a [= <-]. unfold view. f_equal.
    destruct (work _) eqn:Et; cbn; [by apply H2|exact H1].
  - split; [by apply neat_conn|done].
  - split; [exact Hs|done].
  - exact Logic.I.
  - exact Logic.I.
Qed.
Lemma ke_read {A} w (f : mapdata -> A) : keeps (exec w (st_read f)).
Proof. intros W ms s Hs. pose proof (neat_read w f W ms s Hs) as H. by destruct (exec w (st_read f) W s) as [[a| |] s']; [destruct H|..]. Qed.
Lemma ke_flag w b : keeps (modify (put_flag w b)).
Proof. intros W ms s Hs w'. specialize (Hs w'). by destruct w, w'. Qed.
Lemma ke_idb : keeps (modify (fun s => Sys (db s) (idb s) true (ticks s) (status s) (trace s))).
Proof. intros W ms s Hs w'. by specialize (Hs w'); destruct w'. Qed.
Lemma ke_send e : keeps (send e).
Proof. intros W ms s Hs w'. by specialize (Hs w'); destruct w'. Qed.
Lemma ke_put f : keeps (put_status f).
Proof. intros W ms s Hs w'. by specialize (Hs w'); destruct w'. Qed.
Ltac ke :=
  repeat first
    [ apply ke_ret | apply ke_panic | apply ke_begin_st | apply ke_read | apply ke_lift
    | apply ke_unwrapD | apply ke_gets | apply ke_ask | apply ke_flag | apply ke_idb | apply ke_send | apply ke_put
    | apply ke_bind; [|intros ?]
    | progress unfold stmt, is_in_transaction, unwrapM, log, begin_if_needed, db_new, open_db, open_map, open_input, consent, get_confirmation, set_state
    | match goal with |- keeps (match ?x with _ => _ end) => destruct x end
    | match goal with |- keeps (if ?x then _ else _) => destruct x end ].
Lemma h_and {A} W (P P' : sys -> Prop) (m : M A) Q Q' : hoare W P m Q nil_ -> hoare W P' m Q' nil_ ->
  hoare W (fun s => P s /\ P' s) m (fun a s => Q a s /\ Q' a s) nil_.
Proof. intros H H' s [Hs Hs']. specialize (H s Hs). specialize (H' s Hs'). by destruct (m W s) as [[a| |] s']. Qed.

(** *** Searching *)
Definition looking (c : Z) (s : sys) : Prop := exists x, at3 true 0 0 [Querying] [] x s /\
  show_progress x = true /\ blocks_total x <= c /\ blocks_done x = 0 /\ blocks_failed x = 0.
Lemma lk_mute {A} (m : M A) c W : mute m -> hoare W (looking c) m (fun _ => looking c) nil_.
Proof.
  intros Hm s (x & Hx & Hr). specialize (Hm W _ _ _ _ _ _ s Hx). destruct (m W s) as [[a| |] s']; [|done..]. by exists x.
Qed.
Lemma lk_total c c' W : c <= c' -> hoare W (looking c) (set_total c') (fun _ => looking c') nil_.
Proof.
  intros Hc s (x & Hx & Hs & Ht & Hd & Hf).
  pose proof (h_put W true 0 0 [Querying] [] x (fun x => Status (show_progress x) c' (blocks_done x) (blocks_failed x) (state x))) as H.
  specialize (H ltac:(split; cbn; lia) ltac:(done) ltac:(cbn; lia) ltac:(cbn; lia) s Hx).
  eexists. split; [exact H|]. cbn. repeat split; try done; lia.
Qed.

(** The run so far: [n] blocks to work on, of which [k] are counted *)
Definition working (late : bool) (n k : Z) (sts : list inst_state) (s : sys) : Prop := exists x,
  at3 true n 0 sts [] x s /\ show_progress x = true /\ blocks_total x = n /\ 0 <= blocks_done x /\ 0 <= blocks_failed x /\
  blocks_done x + (if late then blocks_failed x else 0) = k.

Lemma ke_begin w : keeps (begin_if_needed w). Proof. unfold begin_if_needed. ke. Qed.
Lemma h_iter w W ms : hoare W (fun s => looking 0 s /\ neat ms s) (iter_rows w)
  (fun rs s => (exists t, rs = rows W t (ms w)) /\ looking 0 s) nil_.
Proof.
  unfold iter_rows. eapply h_bind; [apply h_and; [apply lk_mute; mu|apply ke_begin]|].
  intros r. cbn beta. eapply h_bind; [apply h_and; [apply lk_mute; mu|apply ke_unwrapD]|]. intros ?. cbn beta.
  eapply h_bind with (Q1 := fun r s => (forall m, r = DOk m -> m = ms w) /\ looking 0 s).
  { intros s [Hs Hn]. unfold stmt. pose proof (lk_mute (exec w (st_read id)) 0 W ltac:(mu) s Hs) as H1.
    pose proof (neat_read w id W ms s Hn) as H2. unfold mbind, M_bind. destruct (exec w (st_read id) W s) as [[r'| |] s']; [|done..].
    destruct H2 as [_ H2]. destruct r' as [m|]; cbn; (split; [|done]).
    - intros m' [= <-]. by apply H2.
    - done. }
  intros r2. cbn beta. apply h_pre. intros Hr. destruct r2 as [m|]; [|by intros s Hs].
  apply h_ret_bind. intros s Hs. cbn. split; [|exact Hs]. rewrite (Hr m eq_refl). by eexists.
Qed.
Lemma sel_snoc names a inv_ partial d x : negb (query_empty a inv_ partial) || inv_ = true ->
  (sel_rows names a inv_ partial (d ++ [x])).*1 = (sel_rows names a inv_ partial d).*1 ++
    (if row_match (string16 <$> names) a inv_ partial x.1 x.2 then [x.1] else []).
Proof.
  intros Eq. unfold sel_rows. rewrite filter_app, fmap_app. f_equal. unfold row_sel. rewrite Eq. simpl.
  unfold filter; simpl. by destruct (row_match _ _ _ _ _ _).
Qed.
Definition picked (W : world) (m : mapdata) names a inv_ partial (keys : list Z) : Prop :=
  exists t, keys = (sel_rows names a inv_ partial (rows W t m)).*1.
Lemma h_query w names a inv_ partial W ms late :
  hoare W (fun s => at3 true 0 0 [] [] status_new s /\ neat ms s) (query_keys w names a inv_ partial)
    (fun keys s => picked W (ms w) names a inv_ partial keys /\ working late (Z.of_nat (length keys)) 0 [Querying; Ignore] s) nil_.
Proof.
  unfold query_keys. eapply h_bind; [apply h_and; [apply h_state; [done|cbn; lia|cbn; lia]|apply ke_bind; [apply ke_put|intros ?; apply ke_send]]|].
  intros ?. cbn beta.
  eapply h_bind with (Q1 := fun keys s => picked W (ms w) names a inv_ partial keys /\ looking (Z.of_nat (length keys)) s).
  - destruct (negb (query_empty a inv_ partial) || inv_) eqn:Eq.
    2: { apply h_ret; intros s [Hs _]; split; [|eexists; split; [exact Hs|done]]. exists 0%nat.
      unfold sel_rows, row_sel. rewrite Eq. simpl. clear. induction (rows _ _ _) as [|r l IH]; [done|]. unfold filter; simpl. done. }
    eapply h_bind; [eapply h_weaken; [by apply h_iter|]; intros s [Hs Hn]; split; [|exact Hn]; eexists; split; [exact Hs|done]|]. intros rs. cbn beta.
    apply h_pre. intros Hrs. eapply h_bind with (Q1 := fun st s => st.2 = (sel_rows names a inv_ partial rs).*1 /\ looking (Z.of_nat (length st.2)) s).
    + eapply h_conseq.
      * apply (h_foldM W (query_step w (string16 <$> names) a inv_ partial)
          (fun d st s => st.2 = (sel_rows names a inv_ partial d).*1 /\ looking (Z.of_nat (length st.2)) s) nil_ rs (0, [])).
        intros d x r st Er. apply h_pre. intros Hlen. unfold query_step.
        eapply h_bind; [apply lk_mute; mu|]. intros ?. cbn beta. rewrite (sel_snoc names a inv_ partial d x Eq).
        destruct (row_match _ _ _ _ _ _); [|apply h_ret; intros s Hs; split; [by rewrite app_nil_r|done]].
        eapply h_bind with (Q1 := fun _ => looking (Z.of_nat (length (st.2 ++ [x.1])))).
        { destruct (_ =? 0); [apply lk_total; rewrite app_length; cbn; lia|]. apply h_ret.
          intros s (y & ? & ? & ? & ?). exists y. split; [done|]. split; [done|]. split; [rewrite app_length; cbn; lia|done]. }
        intros ?. cbn beta. apply h_ret. intros s Hs. cbn [snd]. split; [by rewrite Hlen|done].
      * intros s Hs. cbn. split; [done|exact Hs].
      * intros st s Hs. exact Hs.
      * done.
    + intros st. cbn beta. apply h_pre. intros Hl. eapply h_bind; [apply lk_mute; mu|]. intros ?. cbn beta.
      apply h_ret. intros s Hs. split; [|done]. destruct Hrs as [t ->]. by exists t.
  - intros keys. cbn beta. apply h_pre. intros Hl.
    eapply h_bind with (Q1 := fun _ s => exists x, at3 true (Z.of_nat (length keys)) 0 [Querying] [] x s /\
  show_progress x = true /\ blocks_total x = Z.of_nat (length keys) /\ blocks_done x = 0 /\ blocks_failed x = 0).
    { intros s (x & Hx & Hs & Ht & Hd & Hf).
      pose proof (h_put W true 0 0 [Querying] [] x (fun x => Status (show_progress x) (Z.of_nat (length keys)) (blocks_done x) (blocks_failed x) (state x))) as H.
      specialize (H ltac:(split; cbn; lia) ltac:(done) ltac:(cbn; lia) ltac:(cbn; lia) s Hx).
      eexists. split; [eapply at_n; [cbn; lia|]; exact H|]. done. }
    intros ?. cbn beta. apply h_ex. intros x. intros s (Hx & Hs & Ht & Hd & Hf).
    eapply (h_bind W (at3 true (Z.of_nat (length keys)) 0 [Querying] [] x)); [apply h_state; [done|done|cbn; lia]| |exact Hx]. intros ?. cbn beta. apply h_ret.
    intros s' Hs'. split; [done|]. eexists. split; [exact Hs'|]. cbn. repeat split; try done; try lia.
    destruct late; lia.
Qed.

(** *** Working *)
Notation S3 := [Querying; Ignore; Editing].
Definition counts_ {A} (late : bool) (n k k' : Z) (m : M A) : Prop := forall W,
  hoare W (working late n k S3) m (fun _ => working late n k' S3) nil_.
Lemma co_mute {A} late n k (m : M A) : mute m -> counts_ late n k k m.
Proof.
  intros Hm W s (x & Hx & Hr). specialize (Hm W _ _ _ _ _ _ s Hx). destruct (m W s) as [[a| |] s']; [|done..]. by exists x.
Qed.
Lemma co_bind {A B} late n k1 k2 k3 (m : M A) (f : A -> M B) :
  counts_ late n k1 k2 m -> (forall a, counts_ late n k2 k3 (f a)) -> counts_ late n k1 k3 (m ≫= f).
Proof. intros Hm Hf W. eapply h_bind; [apply Hm|]. intros a. apply Hf. Qed.
Lemma u64_small z : 0 <= z < 2 ^ 64 -> u64 z = z.
Proof. intros. unfold u64. by apply Z.mod_small. Qed.
Lemma co_put (late : bool) n k k' f : (forall x, blocks_total x = n -> 0 <= blocks_done x -> 0 <= blocks_failed x ->
    blocks_done x + (if late then blocks_failed x else 0) = k ->
    show_progress (f x) = show_progress x /\ blocks_total (f x) = n /\ blocks_done x <= blocks_done (f x) /\ 0 <= blocks_failed (f x) /\
    blocks_done (f x) + (if late then blocks_failed (f x) else 0) = k') -> counts_ late n k k' (put_status f).
Proof.
  intros Hf W s (x & Hx & Hs & Ht & Hd & Hfa & Hk). destruct (Hf x Ht Hd Hfa Hk) as (Hs' & Ht' & Hd' & Hfa' & Hk').
  pose proof (h_put W true n 0 S3 [] x f) as H.
  specialize (H ltac:(split; lia) ltac:(by rewrite Hs') ltac:(done) ltac:(cbn; lia) s Hx).
  exists (f x). split; [exact H|]. rewrite Hs'. repeat split; try done; lia.
Qed.
Lemma co_done late n k : k + 1 < 2 ^ 64 -> counts_ late n k (k + 1) inc_done.
Proof.
  intros Hk. apply co_put. intros x Ht Hd Hf Hx. cbn. rewrite u64_small by (destruct late; lia).
  repeat split; try done; lia.
Qed.
Lemma co_failed n k : counts_ false n k k inc_failed.
Proof.
  apply co_put. intros x Ht Hd Hf Hx. cbn. repeat split; try done; try lia. unfold u64. apply Z.mod_pos_bound. lia.
Qed.
Lemma co_late n k : k + 1 < 2 ^ 64 -> counts_ true n k (k + 1) inc_failed.
Proof.
  intros Hk. apply co_put. intros x Ht Hd Hf Hx. cbn. rewrite u64_small by lia. repeat split; try done; lia.
Qed.
Lemma co_fold {A B} late n (f : A -> B -> M A) l : (forall a x k, 0 <= k < n -> counts_ late n k (k + 1) (f a x)) ->
  forall a k, 0 <= k -> k + Z.of_nat (length l) <= n -> counts_ late n k (k + Z.of_nat (length l)) (foldM f l a).
Proof.
  intros H. induction l as [|x l IH]; intros a k Hk Hn; cbn [length foldM] in *.
  - rewrite Z.add_0_r. apply co_mute, mu_ret.
  - eapply co_bind; [apply H; lia|]. intros b.
    replace (k + Z.of_nat (S (length l))) with (k + 1 + Z.of_nat (length l)) by lia. apply IH; lia.
Qed.
Lemma co_fold0 {A B} late n (f : A -> B -> M A) l a : n = Z.of_nat (length l) ->
  (forall a x k, 0 <= k < n -> counts_ late n k (k + 1) (f a x)) -> counts_ late n 0 n (foldM f l a).
Proof. intros -> H. pose proof (co_fold late _ f l H a 0 ltac:(lia) ltac:(lia)) as K. by rewrite Z.add_0_l in K. Qed.

(** Done *)
Definition worked (late : bool) (n : Z) (s : sys) : Prop := exists x,
  at3 true n (blocks_done x) [Querying; Ignore; Editing; Ignore] [] x s /\
  0 <= blocks_failed x /\ blocks_done x + (if late then blocks_failed x else 0) = n.
Lemma h_begin late n W : hoare W (working late n 0 [Querying; Ignore]) begin_editing (fun _ => working late n 0 S3) nil_.
Proof.
  intros s (x & Hx & Hs & Ht & Hd & Hfa & Hk).
  pose proof (h_state W true n 0 [Querying; Ignore] [] x Editing) as H.
  specialize (H ltac:(done) ltac:(done) ltac:(cbn; lia) s Hx). unfold begin_editing.
  destruct (set_state Editing W s) as [[?| |] s']; [|done..]. exists (in_state x Editing). done.
Qed.
Lemma h_end late n W : hoare W (working late n n S3) end_editing (fun _ => worked late n) nil_.
Proof.
  intros s (x & Hx & Hs & Ht & Hd & Hfa & Hk). apply (at_k _ _ _ (blocks_done x)) in Hx; [|cbn; lia].
  pose proof (h_state W true n (blocks_done x) S3 [] x Ignore) as H.
  specialize (H ltac:(done) ltac:(done) ltac:(done) s Hx). unfold end_editing.
  destruct (set_state Ignore W s) as [[?| |] s']; [|done..]. exists (in_state x Ignore). split; [exact H|]. cbn. lia.
Qed.
Lemma h_work {A} late (f : A -> Z -> M A) keys n a W : n = Z.of_nat (length keys) -> n < 2 ^ 64 ->
  (forall a x k, k + 1 < 2 ^ 64 -> counts_ late n k (k + 1) (f a x)) ->
  hoare W (working late n 0 [Querying; Ignore]) (begin_editing ;; foldM f keys a ;; end_editing) (fun _ => worked late n) nil_.
Proof.
  intros -> Hn Hf. eapply h_bind; [apply h_begin|]. intros ?. cbn beta. eapply h_bind; [|intros ?; apply h_end].
  refine (co_fold0 late _ f keys a eq_refl _ W). intros b x k Hk. apply Hf. lia.
Qed.
Lemma h_worked_mute {A} late n (m : M A) W : mute m -> hoare W (worked late n) m (fun _ => worked late n) nil_.
Proof.
  intros Hm s (x & Hx & Hr). specialize (Hm W _ _ _ _ _ _ s Hx). destruct (m W s) as [[a| |] s']; [|done..]. by exists x.
Qed.

Notation at0 := (at3 true 0 0 [] [] status_new).
Notation atn ms := (fun s => at0 s /\ neat ms s).
Lemma h0_mute {A} (m : M A) W ms : mute m -> keeps m -> hoare W (atn ms) m (fun _ => atn ms) nil_.
Proof. intros Hm Hk. apply h_and; [apply Hm|apply Hk]. Qed.
Lemma co1 {A} n k late (m : M A) : k + 1 < 2 ^ 64 -> mute m -> counts_ late n k (k + 1) (inc_done ;; m).
Proof. intros Hk Hm. eapply co_bind; [by apply co_done|]. intros. by apply co_mute. Qed.

Definition few (W : world) (ms : which -> mapdata) : Prop := forall w t, Z.of_nat (length (rows W t (ms w))) < 2 ^ 64.
Lemma picked_few W ms w names a inv_ partial keys : few W ms -> picked W (ms w) names a inv_ partial keys -> Z.of_nat (length keys) < 2 ^ 64.
Proof.
  intros Hf [t ->]. specialize (Hf w t). rewrite fmap_length. unfold sel_rows.
  pose proof (filter_length (fun r => row_sel names a inv_ partial r.1 r.2 = true) (rows W t (ms w))). lia.
Qed.
(** [n] blocks were found and the run worked on them *)
Definition many (W : world) (m : mapdata) names a inv_ partial (n : Z) : Prop :=
  exists keys, picked W m names a inv_ partial keys /\ n = Z.of_nat (length keys).
Definition made (W : world) (m : mapdata) names a inv_ partial (late : bool) (s : sys) : Prop :=
  exists n, many W m names a inv_ partial n /\ worked late n s.
Lemma h_made {A} W m names a inv_ partial late keys P (k : M A) : picked W m names a inv_ partial keys ->
  hoare W P k (fun _ => worked late (Z.of_nat (length keys))) nil_ -> hoare W P k (fun _ => made W m names a inv_ partial late) nil_.
Proof. intros Hk H. eapply h_post; [exact H|]. intros ? s Hs. exists (Z.of_nat (length keys)). split; [by exists keys|exact Hs]. Qed.
Lemma h_made_mute {A} W m names a inv_ partial late (k : M A) : mute k ->
  hoare W (made W m names a inv_ partial late) k (fun _ => made W m names a inv_ partial late) nil_.
Proof.
  intros Hk s (n & Hn & Hs). pose proof (h_worked_mute late n k W Hk s Hs) as H.
  destruct (k W s) as [[r| |] s']; [|done..]. by exists n.
Qed.

Section run.
Context (W : world) (ms : which -> mapdata) (Hfew : few W ms).
Ltac query late := eapply h_bind; [apply (h_query _ _ _ _ _ _ _ late)|]; intros keys; cbn beta; apply h_pre; intros Hk;
  pose proof (picked_few _ _ _ _ _ _ _ _ Hfew Hk) as Hl.

Lemma h_edits late names a inv_ partial body lt m : (forall c, mark (m c) = None) ->
  hoare W (atn ms) (c ← edit_blocks late names a inv_ partial body; log lt (m c)) (fun _ => made W (ms Main) names a inv_ partial late) nil_.
Proof.
  intros Hm. eapply h_bind; [|intros c; apply h_made_mute, mu_log, Hm].
  unfold edit_blocks. query late. eapply h_made; [exact Hk|].
  eapply h_bind; [apply h_begin|]. intros ?. cbn beta. eapply h_bind.
  { refine (co_fold0 late _ _ keys (0, 0) eq_refl _ W). intros c key k Hk0. unfold edit_block. destruct late.
    - eapply co_bind; [apply co_mute; mu|]. intros ?. eapply co_bind; [apply co_mute; mu|]. intros ?.
      eapply co_bind; [apply co_mute; mu|]. intros ?. eapply co_bind; [apply co_mute; mu|]. intros ec.
      eapply co_bind; [|intros; apply co_mute; mu]. destruct ec.1.
      + apply co_late. lia.
      + apply co_done. lia.
      + eapply co_bind; [apply co_mute; mu|]. intros ?. eapply co_bind; [apply co_mute; mu|]. intros ?. apply co_done. lia.
    - eapply co_bind; [apply co_done; lia|]. intros ?. eapply co_bind; [apply co_mute; mu|]. intros ?.
      eapply co_bind; [apply co_mute; mu|]. intros ?. eapply co_bind; [apply co_mute; mu|]. intros ec.
      eapply co_bind; [|intros; apply co_mute; mu]. destruct ec.1; [apply co_failed|apply co_mute; mu..]. }
  intros c. cbn beta. eapply h_bind; [apply h_end|]. intros ?. cbn beta. by apply h_ret.
Qed.

(** The state in which a command leaves *)
Definition late_of (c : command) : bool := match c with CReplaceNodes => true | _ => false end.
Definition plan (g : args) (n : Z) : Prop :=
  match acmd g with
  | CVacuum => True
  | CClone => exists a o, aarea g = Some a /\ offset g = Some o /\ many W (ms Main) [] (Some (area_add a o)) false true n
  | CDeleteBlocks => many W (ms Main) [] (aarea g) (invert g) false n
  | CDeleteObjects => many W (ms Main) (to_slice (obj_name g)) (aarea g) (invert g) true n
  | CFill => many W (ms Main) [] (aarea g) (invert g) true n
  | CReplaceInInv | CSetMetaVar => many W (ms Main) (anodes g) (aarea g) (invert g) true n
  | COverlay =>
    if bool_decide (default (V3 0 0 0) (offset g) = V3 0 0 0) then many W (ms Input) [] (aarea g) (invert g) true n
    else exists o, offset g = Some o /\ many W (ms Main) [] ((fun a => area_add a o) <$> aarea g) (invert g) true n
  | _ => many W (ms Main) (to_slice (anode g)) (aarea g) (invert g) true n
  end.
Definition left_ (g : args) (s : sys) : Prop :=
  match acmd g with
  | CVacuum => exists x, at3 false 0 0 [Editing; Ignore] [] x s /\ blocks_total x = 0 /\ blocks_done x = 0 /\ blocks_failed x = 0
  | c => exists n, plan g n /\ worked (late_of c) n s
  end.
Lemma h_unwrap {A B} (o : option A) (f : A -> M B) P Q : (forall a, o = Some a -> hoare W P (f a) Q nil_) ->
  hoare W P (a ← unwrapM o; f a) Q nil_.
Proof. intros H. destruct o as [a|]; [|by intros s Hs]. apply h_ret_bind. by apply H. Qed.

Ltac h0 := eapply h_bind; [apply h0_mute; [mu|ke]|]; intros ?; cbn beta.
Lemma h_cmd E g : hoare W (atn ms) (cmd_func E g) (fun _ => left_ g) nil_.
Proof.
  unfold cmd_func, left_, plan. destruct (acmd g); cbn [late_of].
  - unfold clone. apply h_unwrap. intros a Ha. apply h_unwrap. intros o Ho. query false.
    destruct (sort_keys o keys) as [l|] eqn:El; [|by intros s Hs]. apply h_ret_bind.
    eapply h_post; [|intros ? s Hs; exists (Z.of_nat (length keys)); split; [exists a, o; split; [done|]; split; [done|]; by exists keys|exact Hs]].
    apply h_work; [by rewrite (sort_keys_length _ _ _ El)|done|]. intros c key k Hk'. unfold clone_step.
    eapply co_bind; [by apply co_done|]. intros ?. eapply co_bind; [apply co_mute; mu|]. intros rc.
    destruct rc.1 as [[|]|]; [apply co_mute; mu| |apply co_mute; mu].
    eapply co_bind; [apply co_failed|]. intros. apply co_mute. mu.
  - unfold delete_blocks. query false. eapply h_made; [exact Hk|].
    apply h_work; [done..|]. intros u key k Hk'. unfold delete_step. apply co1; [done|]. mu.
  - by apply h_edits.
  - by apply h_edits.
  - by apply h_edits.
  - unfold fill. apply h_unwrap. intros a Ha. apply h_unwrap. intros node Hn. rewrite Ha. by apply h_edits.
  - unfold replace_nodes. apply h_unwrap. intros old Ho. apply h_unwrap. intros new Hn. rewrite Ho. by apply h_edits.
  - unfold replace_in_inv. h0. by apply h_edits.
  - unfold overlay. destruct (bool_decide _).
    + unfold overlay_no_offset. h0. h0. query false. eapply h_made; [exact Hk|].
      apply h_work; [done..|]. intros u key k Hk'. unfold overlay_step.
      eapply co_bind; [by apply co_done|]. intros ?. destruct (aarea g); [|apply co_mute; mu].
      destruct (_ || _); [apply co_mute; mu|]. unfold overlay_part. eapply co_bind; [apply co_mute; mu|]. intros r.
      destruct (keep _ _); [|apply co_mute; mu]. eapply co_bind; [apply co_mute; mu|]. intros ?. eapply co_bind; [apply co_mute; mu|].
      intros ?. destruct (deserialize _ _); [|apply co_failed]. destruct (deserialize _ _); [|apply co_failed]. apply co_mute. mu.
    + unfold overlay_with_offset. apply h_unwrap. intros o Ho. h0. h0. query false.
      eapply h_post; [|intros ? s Hs; exists (Z.of_nat (length keys)); split; [exists o; split; [done|]; by exists keys|exact Hs]].
      apply h_work; [done..|]. intros c key k Hk'. unfold offset_step.
      eapply co_bind; [by apply co_done|]. intros ?. eapply co_bind; [apply co_mute; mu|]. intros r.
      destruct (keep _ _); [|apply co_mute; mu]. destruct (deserialize _ _); [apply co_mute; mu|].
      eapply co_bind; [apply co_failed|]. intros. apply co_mute. mu.
  - unfold set_meta_var. h0. by apply h_edits.
  - unfold set_param2. h0. by apply h_edits.
  - unfold vacuum. h0. intros s [Hs _]. apply (at_sp _ false) in Hs; [|cbn; lia]. revert s Hs.
    eapply (h_bind W (at3 false 0 0 [] [] status_new)); [apply h_put; [split; cbn; lia|cbn; lia..]|]. intros ?. cbn beta.
    eapply h_bind; [apply h_state; [done|cbn; lia|cbn; lia]|]. intros ?. cbn beta.
    eapply h_bind; [apply mu_dbvac|]. intros r. cbn beta.
    eapply h_bind; [apply h_state; [done|done|done]|]. intros ?. cbn beta.
    eapply h_post; [destruct r; apply mu_log; done|]. intros ? s Hs. eexists. split; [exact Hs|done].
Qed.

(** ** The whole run *)
Definition skipped_of (sk : list (option Z)) : Z := default 0 (head (omap id sk)).
Definition ran_ (g : args) (s : sys) : Prop :=
  match acmd g with
  | CVacuum => exists x sk, at3 false 0 0 [Editing; Ignore] sk x s /\ blocks_total x = 0 /\ blocks_done x = 0
  | c => exists n x sk, plan g n /\ at3 true n (blocks_done x) [Querying; Ignore; Editing; Ignore] sk x s /\
      blocks_done x + (if late_of c then skipped_of sk else 0) = n
  end.
Lemma ran_mute {A} g (m : M A) : mute m -> hoare W (ran_ g) m (fun _ => ran_ g) nil_.
Proof.
  intros Hm s Hs. assert (forall sp n k sts sk x, at3 sp n k sts sk x s ->
    match m W s with (Done _, s') => at3 sp n k sts sk x s' | _ => True end) as K.
  { intros sp n k sts sk x Hx. specialize (Hm W _ _ _ _ _ _ s Hx). by destruct (m W s) as [[a| |] s']. }
  unfold ran_ in *. destruct (m W s) as [[a| |] s']; [|done..].
  destruct (acmd g); try (destruct Hs as (n & x & sk & Hpl & Hx & Hr); exists n, x, sk; split; [done|]; split; [by apply K in Hx|exact Hr]).
  destruct Hs as (x & sk & Hx & Hr). exists x, sk. split; [by apply K in Hx|exact Hr].
Qed.
Lemma h_log_mark sp n k sts sk x lt m :
  hoare W (at3 sp n k sts sk x) (log lt m) (fun _ => at3 sp n k sts (sk ++ o2l (mark m)) x) nil_.
Proof. intros s Hs. cbn. by apply (at_send (TLog lt m)). Qed.
Lemma h_finish sp n k sts x : 0 <= blocks_failed x ->
  hoare W (at3 sp n k sts [] x) finish (fun _ s => exists sk, at3 sp n k sts sk x s /\ skipped_of sk = blocks_failed x) nil_.
Proof.
  intros Hf s Hs. unfold finish.
  eapply (h_bind W (fun s => at3 sp n k sts [] x s) _ _ _ (fun f s => f = blocks_failed x /\ at3 sp n k sts [] x s)); [| |exact Hs].
  { intros s1 Hs1. cbn. split; [|done]. by destruct Hs1 as (-> & _). }
  intros f. cbn beta. apply h_pre. intros ->.
  set (sk := if 0 <? blocks_failed x then [Some (blocks_failed x)] else []).
  assert (skipped_of sk = blocks_failed x) as Esk by (unfold sk, skipped_of; destruct (Z.ltb_spec 0 (blocks_failed x)); cbn; lia).
  assert (skipped_of (sk ++ [None]) = blocks_failed x) as Esk2 by (unfold sk, skipped_of; destruct (Z.ltb_spec 0 (blocks_failed x)); cbn; lia).
  eapply h_bind with (Q1 := fun _ => at3 sp n k sts sk x).
  { unfold sk. destruct (0 <? _); [|by apply h_ret]. exact (h_log_mark sp n k sts [] x LInfo (MSkipped (blocks_failed x))). }
  intros ?. cbn beta. eapply h_bind; [apply (mu_gets _ W)|]. intros fl. cbn beta.
  eapply h_bind with (Q1 := fun _ => at3 sp n k sts sk x); [assert (mute (if fl : bool then
         log LInfo MCommitting ;; r ← commit_if_needed Main; mret (match r with DOk _ => None | DErr _ => Some ECommit end)
       else mret None)) as K by mu; apply K|].
  intros [e|]; cbn beta.
  - apply h_ret. intros s1 Hs1. by exists sk.
  - eapply h_bind; [apply h_log_mark|]. intros ?. cbn beta. apply h_ret. intros s1 Hs1. by exists (sk ++ [None]).
Qed.
Lemma h_left_finish g : hoare W (left_ g) finish (fun _ => ran_ g) nil_.
Proof.
  intros s Hs. assert (forall sp n k sts x, at3 sp n k sts [] x s -> 0 <= blocks_failed x -> match finish W s with
    | (Done _, s') => exists sk, at3 sp n k sts sk x s' /\ skipped_of sk = blocks_failed x | _ => True end) as K.
  { intros sp n k sts x Hx Hf. pose proof (h_finish sp n k sts x Hf s Hx) as H. by destruct (finish W s) as [[?| |] s']. }
  unfold left_, ran_ in *. destruct (finish W s) as [[a| |] s']; [|done..].
  destruct (acmd g); try (destruct Hs as (n & Hpl & x & Hx & Hf & Hr); destruct (K _ _ _ _ _ Hx Hf) as (sk & Hx' & Hsk);
    exists n, x, sk; split; [exact Hpl|]; split; [exact Hx'|]; cbn [late_of] in *; lia).
  destruct Hs as (x & Hx & Ht & Hd & Hf). destruct (K _ _ _ _ _ Hx) as (sk & Hx' & Hsk); [lia|]. by exists x, sk.
Qed.

Lemma verify_warning g w : cmd_verify g = Ret (AWarning w) -> w = MAllMeta.
Proof.
  unfold cmd_verify, unwrap. destruct (acmd g), (aarea g), (offset g); cbn; repeat case_match; congruence.
Qed.
Lemma h_compute E g :
  hoare W (atn ms) (compute_thread E g) (fun _ s => at0 s \/ ran_ g s) nil_.
Proof.
  unfold compute_thread. assert (forall (a : option inst_error), hoare W (atn ms) (mret a) (fun _ s => at0 s \/ ran_ g s) nil_) as Hret.
  { intros a. apply h_ret. intros s [Hs _]. auto. }
  destruct (verify_args g); [apply Hret|].
  eapply h_bind with (Q1 := fun v s => (match v with AWarning w => mark w = None | _ => True end) /\ atn ms s).
  { intros s Hs.
    destruct (cmd_verify g) as [v|] eqn:Ev; [|done]. split; [|done]. destruct v; try exact Logic.I.
    by rewrite (verify_warning _ _ Ev). }
  intros v. cbn beta. apply h_pre. intros Hv.
  assert (forall w, (forall m, w = Some m -> mark m = None) -> hoare W (atn ms) (e1 ← open_db Main (map_path g) EOpenMain EBadMain;
      match e1 with
      | Some e => mret (Some e)
      | None => e2 ← open_input g;
        match e2 with
        | Some e => mret (Some e)
        | None => run_command E g w
        end
      end) (fun _ s => at0 s \/ ran_ g s) nil_) as H.
  { intros w Hw. h0. destruct a; [apply Hret|]. h0. destruct a; [apply Hret|]. unfold run_command.
    eapply h_bind; [apply h0_mute; [by apply mu_consent|ke]|]. intros []; [|apply Hret].
    eapply h_bind; [apply h_cmd|]. intros ?. cbn beta. eapply h_post; [apply h_left_finish|]. auto. }
  destruct v; [|apply H|apply Hret].
  - apply H. done.
  - by intros m' [= <-].
Qed.
Lemma h_thread E g : hoare W (atn ms) (thread_main E g) (fun _ s => at0 s \/ ran_ g s) nil_.
Proof.
  unfold thread_main. eapply h_bind; [apply h_compute|]. intros r. cbn beta.
  assert (mute (match r with Some e => log LError (MErr e) | None => mret tt end)) as K by mu.
  intros s [Hs|Hs].
  - specialize (K W _ _ _ _ _ _ s Hs). destruct (match r with Some e => log LError (MErr e) | None => mret tt end W s) as [[?| |] s']; auto.
  - pose proof (ran_mute g _ K s Hs) as Hr. destruct (match r with Some e => log LError (MErr e) | None => mret tt end W s) as [[?| |] s']; auto.
Qed.
End run.

Definition maps (main input : mapdata) (w : which) : mapdata := match w with Main => main | Input => input end.
Lemma thread_told E g W main input s : finite_tables W main input ->
  thread_main E g W (start main input) = (Done tt, s) -> at0 s \/ ran_ W (maps main input) g s.
Proof.
  intros HW E1. assert (at0 (start main input)) as H0.
  { unfold at3. cbn. do 4 (split; [done|]). constructor.
    - intros l1 l2 H1 H2. apply prefix_nil_inv in H2 as ->. apply prefix_nil_inv in H1 as ->. split; lia.
    - intros l1 H1%prefix_nil_inv. subst. done.
    - intros l1 H1%prefix_nil_inv. subst. done.
    - intros l1 H1%prefix_nil_inv. subst. done. }
  assert (neat (maps main input) (start main input)) as Hn by (by intros []).
  assert (few W (maps main input)) as Hf by (intros [] t; apply HW).
  pose proof (h_thread W _ Hf E g _ (conj H0 Hn)) as H. by rewrite E1 in H.
Qed.
