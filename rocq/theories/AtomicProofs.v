(** A run with faults ends with the old map or with the map of the run without
    faults, and says "Done." only in the second case *)
From Verif Require Import Sys SysProofs SpecRun CodecProofs Instance ArgProofs SpecCmd FaultProofs.

Section atomic.
  Context (W : world) (d : mapdata).

  Definition nd (s : sys) : Prop := (LInfo, MDone) ∉ logs (trace s).
  Definition safe (s : sys) : Prop := disk (cn (db s)) = d /\ nd s.
  Definition open_tr (s : sys) : Prop := (exists m, db s = MDB (Conn d (Some m)) true) /\ nd s.
  Lemma open_safe s : open_tr s -> safe s.
  Proof. intros [[m Hm] Hn]. split; [|done]. by rewrite Hm. Qed.

  (** The same as without faults, or stopped with the old map *)
  Definition same {A} (m : M A) (Q : A -> sys -> Prop) s : Prop :=
    m W s = m (calm W) s /\ match m W s with (Done a, s') => Q a s' | (_, s') => safe s' end.
  Definition halts {A} (m : M A) s : Prop := match m W s with (Done _, _) => False | (_, s') => safe s' end.
  Definition sim {A} (P : sys -> Prop) (m : M A) (Q : A -> sys -> Prop) : Prop :=
    forall s, P s -> same m Q s \/ halts m s.
  Notation csim m := (sim open_tr m (fun _ => open_tr)).

  (** Also possible: an error *)
  Definition failing : Prop := exists t rb, faults W t = FFail rb.
  Definition xsim {A} (m : M (option A)) : Prop := forall s, open_tr s ->
    same m (fun _ => open_tr) s \/ halts m s \/
    exists s', m W s = (Done None, s') /\ safe s' /\ failing.
  Definition dsim {A} (m : M (dres A)) : Prop := forall s, open_tr s ->
    same m (fun _ => open_tr) s \/ halts m s \/
    exists e s', m W s = (Done (DErr e), s') /\ safe s' /\ failing.

  Lemma s_ret {A} P (a : A) : sim P (mret a) (fun _ => P).
  Proof. intros s Hs. by left. Qed.
  Lemma s_bind {A B} P (m : M A) Q (f : A -> M B) R :
    sim P m Q -> (forall a, sim (Q a) (f a) R) -> sim P (m ≫= f) R.
  Proof.
    intros Hm Hf s Hs. unfold same, halts. unfold mbind, M_bind. destruct (Hm s Hs) as [[He Hp]|Hh].
    - rewrite <- He. destruct (m W s) as [[a| |] s']; [apply (Hf a s' Hp)|by left..].
    - unfold halts in Hh. destruct (m W s) as [[a| |] s']; [done|by right..].
  Qed.
  Lemma s_panic {A} (P : sys -> Prop) Q : (forall s, P s -> safe s) -> sim P (@panic A) Q.
  Proof. intros H s Hs. right. by apply H. Qed.
  Lemma s_lift {A} (o : out A) : csim (lift o).
  Proof. destruct o; [apply s_ret|]. apply s_panic, open_safe. Qed.
  Lemma s_unwrapM {A} (o : option A) : csim (unwrapM o).
  Proof. apply s_lift. Qed.
  Lemma s_gets {A} P (f : sys -> A) : sim P (gets f) (fun _ => P).
  Proof. intros s Hs. by left. Qed.
  Lemma s_rows m : csim (row_order m).
  Proof. intros s Hs. by left. Qed.
  Lemma s_foldM {A B} (f : A -> B -> M A) l a : (forall a x, csim (f a x)) -> csim (foldM f l a).
  Proof. intros H. revert a. induction l; intros b; simpl; [apply s_ret|]. eapply s_bind; [apply H|]. auto. Qed.
  Lemma nd_snoc e s t : nd s -> e <> TLog LInfo MDone -> trace t = trace s ++ [e] -> nd t.
  Proof.
    unfold nd. intros Hn He ->. unfold logs. rewrite omap_app. intros [H|H]%elem_of_app; [done|].
    destruct e as [lt m| | |]; simpl in H; [|by apply elem_of_nil in H..]. apply elem_of_list_singleton in H. by inv H.
  Qed.
  Lemma s_send e : e <> TLog LInfo MDone -> csim (send e).
  Proof. intros He s [Hm Hn]. left. split; [done|]. split; [done|]. by apply (nd_snoc e s). Qed.
  Lemma s_log lt m : m <> MDone -> csim (log lt m).
  Proof. intros H. apply s_send. congruence. Qed.
  Lemma s_status f : csim (put_status f).
  Proof. intros s [Hm Hn]. left. split; [done|]. split; [done|]. by apply (nd_snoc (TStatus (f (status s))) s). Qed.
  Lemma s_state x : csim (set_state x).
  Proof. eapply s_bind; [apply s_status|]. intros. by apply s_send. Qed.

  Lemma x_exec {A} w (f : conn -> option (A * conn)) :
    (w = Main -> forall m a c', f (Conn d (Some m)) = Some (a, c') -> exists m', c' = Conn d (Some m')) ->
    xsim (exec w f).
  Proof.
    intros Hf s [[m Hm] Hn]. unfold same, halts, exec. simpl.
    destruct (faults W (ticks s)) as [|rb|after] eqn:Hfl.
    - left. split; [done|]. destruct w; simpl; [|destruct (f _) as [[a c']|]; split; eauto].
      rewrite Hm. simpl. destruct (f _) as [[a c']|] eqn:E; [|split; eauto].
      destruct (Hf eq_refl _ _ _ E) as [m' ->]. split; [|done]. by exists m'.
    - right. right. eexists. split; [done|]. split; [|eexists _, _; exact Hfl].
      destruct rb, w; simpl; split; simpl; try done; by rewrite Hm.
    - right. left. destruct w; simpl.
      + rewrite Hm. simpl. destruct (f _) as [[a c']|] eqn:E; [|split; simpl; [by rewrite Hm|done]].
        destruct (Hf eq_refl _ _ _ E) as [m' ->]. destruct after; split; simpl; try done. by rewrite Hm.
      + destruct (f _) as [[a c']|]; [|split; simpl; [by rewrite Hm|done]].
        destruct after; split; simpl; try done; by rewrite Hm.
  Qed.
  Lemma d_stmt {A} (m : M (option A)) : xsim m -> dsim (stmt m).
  Proof.
    intros H s Hs. unfold same, halts, stmt. unfold mbind, M_bind. destruct (H s Hs) as [[He Hp]|[Hh|(s' & He & Hp & Hf)]].
    - left. rewrite <- He. destruct (m W s) as [[a| |] s']; done.
    - right. left. unfold halts in Hh. destruct (m W s) as [[a| |] s']; done.
    - right. right. rewrite He. eexists _, _. done.
  Qed.
  Lemma d_ret {A} (r : dres A) : dsim (mret r).
  Proof. intros s Hs. by left. Qed.
  Lemma d_sim {A} (m : M (dres A)) : csim m -> dsim m.
  Proof. intros H s Hs. destruct (H s Hs); auto. Qed.
  Lemma d_bind {A B} (m : M (dres A)) (f : dres A -> M (dres B)) :
    dsim m -> (forall a, dsim (f (DOk a))) -> (forall e, f (DErr e) = mret (DErr e)) -> dsim (m ≫= f).
  Proof.
    intros Hm Hf Herr s Hs. unfold same, halts. unfold mbind, M_bind. destruct (Hm s Hs) as [[He Hp]|[Hh|(e & s' & He & Hp & Hfl)]].
    - rewrite <- He. destruct (m W s) as [[[a|e]| |] s']; [apply (Hf a s' Hp)|rewrite Herr; by left|by left..].
    - unfold halts in Hh. destruct (m W s) as [[a| |] s']; [done|by right; left..].
    - rewrite He, Herr. right. right. eexists _, _. done.
  Qed.
  Lemma s_unwrapD {A B} (m : M (dres A)) (f : A -> M B) Q :
    dsim m -> (forall a, sim open_tr (f a) Q) -> sim open_tr (r ← m; a ← unwrapD r; f a) Q.
  Proof.
    intros Hm Hf s Hs. unfold same, halts. unfold mbind, M_bind. destruct (Hm s Hs) as [[He Hp]|[Hh|(e & s' & He & Hp & Hfl)]].
    - rewrite <- He. destruct (m W s) as [[[a|e]| |] s']; [apply (Hf a s' Hp)|right; by apply open_safe|by left..].
    - unfold halts in Hh. destruct (m W s) as [[a| |] s']; [done|by right..].
    - rewrite He. by right.
  Qed.
  Lemma s_unwrapD' {A} (m : M (dres A)) : dsim m -> csim (r ← m; unwrapD r).
  Proof.
    intros Hm s Hs. destruct (s_unwrapD m mret _ Hm (fun a => s_ret _ a) s Hs) as [H|H]; [left|right]; revert H;
    unfold same, halts; unfold mbind, M_bind.
    - destruct (m W s) as [[[a|e]| |] s']; destruct (m (calm W) s) as [[[a'|e']| |] s'']; done.
    - destruct (m W s) as [[[a|e]| |] s']; done.
  Qed.
  Lemma s_okD {A} (m : M (dres A)) : dsim m -> ~ failing -> csim m.
  Proof. intros Hm Hf s Hs. destruct (Hm s Hs) as [H|[H|(? & ? & ? & ? & ?)]]; auto. done. Qed.

  Lemma d_begin w : dsim (begin_if_needed w).
  Proof.
    intros s Hs. unfold begin_if_needed.
    destruct (in_tr (get_db w s)) eqn:Ef.
    - left. unfold same. cbn. unfold mbind, M_bind. cbn. rewrite Ef. done.
    - destruct w; [destruct Hs as [[m Hm] _]; simpl in Ef; by rewrite Hm in Ef|].
      assert (dsim (stmt (exec Input st_begin))) as H by (apply d_stmt, x_exec; done).
      assert (forall W', begin_if_needed Input W' s = stmt (exec Input st_begin) W' s) as Hb.
      { intros W'. unfold begin_if_needed, is_in_transaction, mbind, M_bind, gets. by rewrite Ef. }
      specialize (H s Hs). unfold same, halts in *. fold (begin_if_needed Input). by rewrite !Hb.
  Qed.
  Lemma x_read {A} w (h : mapdata -> A) : xsim (exec w (st_read h)).
  Proof. apply x_exec. intros _ m a c' [= <- <-]. by exists m. Qed.
  Lemma x_write w g : xsim (exec_write w g).
  Proof. apply x_exec. intros -> m a c' [= <- <-]. by eexists. Qed.
  Lemma d_get w key : dsim (get_block w key).
  Proof.
    apply d_bind; [apply d_begin| |done]. intros. apply d_bind; [apply d_stmt, x_read| |done].
    intros [|]; apply d_ret.
  Qed.
  Lemma d_set w key x : dsim (set_block w key x).
  Proof. apply d_bind; [apply d_begin| |done]. intros. apply d_stmt, x_write. Qed.
  Lemma d_delete w key : dsim (delete_block w key).
  Proof. apply d_bind; [apply d_begin| |done]. intros. apply d_stmt, x_write. Qed.
  Lemma s_next w : csim (next_row w).
  Proof. apply s_unwrapD'. apply d_stmt, x_read. Qed.
  Lemma s_iter w : csim (iter_rows w).
  Proof.
    apply s_unwrapD; [apply d_begin|]. intros ?. cbn beta. apply s_unwrapD; [apply d_stmt, x_read|]. intros. apply s_rows.
  Qed.
  Ltac cs t := eapply s_bind; [t|]; intros ?; cbn beta.
  Lemma s_query w names a inv_ partial : csim (query_keys w names a inv_ partial).
  Proof.
    unfold query_keys. cs ltac:(apply s_state). cs ltac:(idtac).
    - destruct (_ || _); [|apply s_ret]. cs ltac:(apply s_iter). cs ltac:(apply s_foldM).
      + intros st x. unfold query_step. cs ltac:(apply s_next).
        destruct (row_match _ _ _ _ _ _); [|apply s_ret].
        cs ltac:(destruct (_ =? 0); [apply s_status|apply s_ret]). apply s_ret.
      + cs ltac:(apply s_next). apply s_ret.
    - cs ltac:(apply s_status). cs ltac:(apply s_state). apply s_ret.
  Qed.
  Lemma s_edit_blocks late names a inv_ partial body : csim (edit_blocks late names a inv_ partial body).
  Proof.
    unfold edit_blocks. cs ltac:(apply s_query). cs ltac:(apply s_state). cs ltac:(apply s_foldM).
    - intros c k. unfold edit_block. cs ltac:(destruct late; [apply s_ret|apply s_status]).
      apply s_unwrapD; [apply d_get|]. intros. eapply s_bind; [apply s_lift|]. intros ec. cbn beta.
      cs ltac:(idtac); [|apply s_ret].
      destruct ec.1; [apply s_status|destruct late; [apply s_status|apply s_ret]|].
      apply s_unwrapD; [apply d_set|]. intros. destruct late; [apply s_status|apply s_ret].
    - cs ltac:(apply s_state). apply s_ret.
  Qed.
  Lemma s_edits E g : acmd g = CDeleteBlocks \/ in_place (acmd g) = true -> csim (cmd_func E g).
  Proof.
    unfold cmd_func. intros H. destruct (acmd g); try (by destruct H).
    - unfold delete_blocks. cs ltac:(apply s_query). cs ltac:(apply s_state). cs ltac:(apply s_foldM); [|apply s_state].
      intros c k. unfold delete_step. cs ltac:(apply s_status). apply s_unwrapD', d_delete.
    - cs ltac:(apply s_edit_blocks). by apply s_log.
    - cs ltac:(apply s_edit_blocks). by apply s_log.
    - cs ltac:(apply s_edit_blocks). by apply s_log.
    - cs ltac:(apply s_unwrapM). cs ltac:(apply s_unwrapM). cs ltac:(apply s_edit_blocks). by apply s_log.
    - cs ltac:(apply s_unwrapM). cs ltac:(apply s_unwrapM). cs ltac:(apply s_edit_blocks). by apply s_log.
    - cs ltac:(apply s_unwrapM). cs ltac:(apply s_edit_blocks). by apply s_log.
    - cs ltac:(apply s_unwrapM). cs ltac:(apply s_edit_blocks). by apply s_log.
    - cs ltac:(apply s_unwrapM). cs ltac:(apply s_edit_blocks). by apply s_log.
  Qed.
  Section copies.
    Context (Hnf : ~ failing).
    Lemma s_cached E w c key : csim (get_cached E w c key).
    Proof.
      unfold get_cached. destruct (cache_get c key); [apply s_ret|]. cs ltac:(apply s_okD; [apply d_get|done]). apply s_ret.
    Qed.
    Lemma s_copy_from E w part ofs pos dst c : csim (copy_from E w part ofs pos dst c).
    Proof.
      unfold copy_from. cs ltac:(apply s_unwrapM). apply s_foldM. intros st p. unfold copy_step.
      destruct (negb _); [apply s_ret|]. cs ltac:(apply s_lift).
      eapply s_bind; [apply s_cached|]. intros rc. cbn beta. destruct rc.1 as [[|]|]; [|apply s_ret..].
      cs ltac:(apply s_lift). apply s_ret.
    Qed.
    Lemma s_clean_write E key b : csim (clean_write E key b).
    Proof. unfold clean_write. cs ltac:(apply s_lift). apply s_unwrapD', d_set. Qed.
    Lemma s_copy_whole E k : csim (copy_whole E k).
    Proof.
      unfold copy_whole. apply s_unwrapD; [apply d_get|]. intros. destruct (is_valid_generated _ _); [|apply s_ret].
      apply s_unwrapD', d_set.
    Qed.
    Lemma s_has : csim (has ← gets has_idb; if has : bool then mret tt else panic).
    Proof. eapply s_bind; [apply s_gets|]. intros []; [apply s_ret|apply s_panic, open_safe]. Qed.
    Lemma s_copies E g : acmd g = CClone \/ acmd g = COverlay -> csim (cmd_func E g).
    Proof.
      unfold cmd_func. intros [-> | ->].
      - unfold clone. cs ltac:(apply s_unwrapM). cs ltac:(apply s_unwrapM). cs ltac:(apply s_query).
        cs ltac:(apply s_lift). cs ltac:(apply s_state). cs ltac:(apply s_foldM); [|apply s_state].
        intros c k. unfold clone_step. cs ltac:(apply s_status).
        eapply s_bind; [apply s_cached|]. intros rc. cbn beta. destruct rc.1 as [[|]|]; [| |apply s_ret].
        + cs ltac:(apply s_unwrapM). cs ltac:(apply s_copy_from). cs ltac:(apply s_clean_write). apply s_ret.
        + cs ltac:(apply s_status). apply s_ret.
      - unfold overlay. destruct (bool_decide _).
        + unfold overlay_no_offset. eapply s_bind; [apply s_gets|]. intros has. cbn beta.
          cs ltac:(destruct has; [apply s_ret|apply s_panic, open_safe]).
          cs ltac:(apply s_query). cs ltac:(apply s_state). cs ltac:(apply s_foldM); [|apply s_state].
          intros c k. unfold overlay_step. cs ltac:(apply s_status).
          destruct (aarea g); [|apply s_copy_whole]. destruct (_ || _); [apply s_copy_whole|].
          unfold overlay_part. eapply s_bind; [apply s_okD; [apply d_get|done]|]. intros r. cbn beta.
          destruct (keep _ _); [|apply s_ret]. apply s_unwrapD; [apply d_get|]. intros.
          destruct (deserialize _ _); [|apply s_status]. destruct (deserialize _ _); [|apply s_status].
          cs ltac:(apply s_lift). apply s_clean_write.
        + unfold overlay_with_offset. cs ltac:(apply s_unwrapM). eapply s_bind; [apply s_gets|]. intros has. cbn beta.
          cs ltac:(destruct has; [apply s_ret|apply s_panic, open_safe]).
          cs ltac:(apply s_query). cs ltac:(apply s_state). cs ltac:(apply s_foldM); [|apply s_state].
          intros c k. unfold offset_step. cs ltac:(apply s_status).
          eapply s_bind; [apply s_okD; [apply d_get|done]|]. intros r. cbn beta.
          destruct (keep _ _); [|apply s_ret]. destruct (deserialize _ _); [|cs ltac:(apply s_status); apply s_ret].
          cs ltac:(apply s_lift). cs ltac:(apply s_copy_from). cs ltac:(apply s_clean_write). apply s_ret.
    Qed.
  End copies.

  (** ** The whole run *)
  Definition good {A} (r rc : run A * sys) : Prop :=
    (disk (cn (db r.2)) = d \/ disk (cn (db r.2)) = disk (cn (db rc.2))) /\ (nd r.2 \/ r = rc).
  Definition tsim {A} (P : sys -> Prop) (m : M A) : Prop := forall s, P s -> good (m W s) (m (calm W) s).

  Lemma t_bind {A B} P (m : M A) Q (f : A -> M B) :
    sim P m Q -> (forall a, tsim (Q a) (f a)) -> tsim P (m ≫= f).
  Proof.
    intros Hm Hf s Hs. unfold mbind, M_bind. destruct (Hm s Hs) as [[He Hp]|Hh].
    - rewrite <- He. destruct (m W s) as [[a| |] s']; [apply (Hf a s' Hp)|..]; split; auto.
    - unfold halts in Hh. destruct (m W s) as [[a| |] s']; [done|..]; destruct Hh; split; auto.
  Qed.
  Lemma t_ret {A} (P : sys -> Prop) (a : A) : tsim P (mret a).
  Proof. intros s Hs. split; auto. Qed.

  (** Steps of opening: an error ends the run *)
  Definition osim (P : sys -> Prop) (m : M (option inst_error)) (Q : sys -> Prop) : Prop := forall s, P s ->
    same m (fun r s => match r with None => Q s | Some _ => safe s end) s \/ halts m s \/
    exists e s', m W s = (Done (Some e), s') /\ safe s'.
  Lemma t_open P (m : M (option inst_error)) Q (k : M (option inst_error)) :
    osim P m Q -> tsim Q k ->
    tsim P (r ← m; match r with Some e => mret (Some e) | None => k end).
  Proof.
    intros Hm Hk s Hs. unfold mbind, M_bind. destruct (Hm s Hs) as [[He Hp]|[Hh|(e & s' & He & Hsf)]].
    - rewrite <- He. destruct (m W s) as [[[e|]| |] s']; [split; auto|apply (Hk s' Hp)|split; auto..].
    - unfold halts in Hh. destruct (m W s) as [[a| |] s']; [done|..]; destruct Hh; split; auto.
    - rewrite He. destruct Hsf. split; auto.
  Qed.
  Definition fresh (s : sys) : Prop := db s = MDB (Conn d None) false /\ nd s.
  Lemma o_main p e1 e2 : osim fresh (open_db Main p e1 e2) open_tr.
  Proof.
    intros s [Hs Hn]. unfold same, halts, open_db, open_map, ask, db_new, exec, mbind, M_bind, mret, M_ret.
    change (find_map (calm W)) with (find_map W). change (can_open (calm W)) with (can_open W).
    change (valid_map (calm W)) with (valid_map W).
    assert (safe s) as Hsf by (split; [by rewrite Hs|done]).
    destruct (keep _ _) as [f|]; [|by left].
    simpl get_db. rewrite Hs. cbn. destruct (faults W (ticks s)) as [|rb|after].
    - cbn. destruct (faults W (S (ticks s))) as [|rb|after]; cbn.
      + left. destruct (valid_map W f); cbn; (split; [done|]; split; [|done]); [by eexists|done].
      + right. right. eexists _, _. split; [done|]. by destruct rb.
      + right. left. by destruct after.
    - cbn. right. right. eexists _, _. split; [done|]. destruct rb; split; try done. cbn. by rewrite Hs.
    - cbn. right. left. destruct after; split; try done. cbn. by rewrite Hs.
  Qed.
  Lemma o_input g : osim open_tr (open_input g) open_tr.
  Proof.
    intros s Hs. unfold open_input. destruct (input_map_path g) as [p|]; [|by left].
    destruct Hs as [[m Hs] Hn].
    assert (forall s', db s' = db s -> trace s' = trace s -> safe s' /\ open_tr s') as Hk.
    { intros s' Hd Ht. assert (open_tr s'); [|by split; [apply open_safe|]].
      split; [exists m; by rewrite Hd|unfold nd; by rewrite Ht]. }
    unfold same, halts, open_db, open_map, ask, db_new, exec, mbind, M_bind, mret, M_ret.
    change (find_map (calm W)) with (find_map W). change (can_open (calm W)) with (can_open W).
    change (valid_map (calm W)) with (valid_map W).
    destruct (keep _ _) as [f|]; [|left; split; [done|]; by apply Hk].
    simpl get_db. cbn. destruct (faults W (ticks s)) as [|rb|after].
    - destruct (st_begin _) as [[u c]|]; cbn; [|left; split; [done|]; by apply Hk].
      destruct (faults W (S (ticks s))) as [|rb|after]; cbn.
      + left. destruct (valid_map W f); cbn; (split; [done|]); by apply Hk.
      + right. right. eexists _, _. split; [done|]. by destruct rb; apply Hk.
      + right. left. by destruct after; apply Hk.
    - cbn. right. right. eexists _, _. split; [done|]. by destruct rb; apply Hk.
    - cbn. right. left. destruct (st_begin _) as [[u c]|]; [|by apply Hk]. by destruct after; apply Hk.
  Qed.
  Lemma s_consent g w : w <> Some MDone -> csim (consent g w).
  Proof.
    intros Hw. unfold consent. cs ltac:(destruct (do_confirmation g); [by apply s_log|apply s_ret]).
    cs ltac:(destruct w; [apply s_log; congruence|apply s_ret]). destruct (do_confirmation g); [|apply s_ret].
    unfold get_confirmation. cs ltac:(by apply s_send). intros s Hs. by left.
  Qed.
  Lemma t_finish : tsim open_tr finish.
  Proof.
    unfold finish. eapply t_bind; [apply s_gets|]. intros fails. cbn beta.
    eapply t_bind; [destruct (0 <? fails); [by apply s_log|apply s_ret]|]. intros ?. cbn beta.
    intros s [[m Hm] Hn]. destruct s as [db0 idb0 h u st t]. simpl in Hm. subst db0.
    assert (nd (Sys (MDB (Conn d (Some m)) true) idb0 h u st (t ++ [TLog LInfo MCommitting]))) as Hn'.
    { by apply (nd_snoc (TLog LInfo MCommitting) _ _ Hn). }
    cbv [is_in_transaction gets mbind M_bind commit_if_needed stmt exec mret M_ret log send modify get_db db in_tr cn
         ticks tick st_commit work disk put_conn put_db idb has_idb status trace put_flag].
    change (faults (calm W) u) with FOk. destruct (faults W u) as [|rb|after].
    - split; right; done.
    - destruct rb; (split; left; [done|exact Hn']).
    - destruct after; (split; [|left; exact Hn']); [by right|by left].
  Qed.
  Lemma t_thread E g : csim (cmd_func E g) -> tsim fresh (thread_main E g).
  Proof.
    intros Hc. assert (tsim fresh (compute_thread E g)) as H.
    { unfold compute_thread. destruct (verify_args g); [apply t_ret|].
      eapply t_bind with (Q := fun v s => (forall w, v = AWarning w -> w <> MDone) /\ fresh s).
      { intros s Hs. destruct (cmd_verify g) as [v|] eqn:Ev; [left|right; destruct Hs as [Hs ?]; split; [cbn; by rewrite Hs|done]].
        split; [done|]. split; [|done]. intros w ->. unfold cmd_verify in Ev.
        destruct (acmd g); cbn in Ev; repeat case_match; simplify_eq; try done;
          unfold bindO, unwrap in Ev; repeat case_match; simplify_eq; done. }
      intros v. cbn beta.
      assert ((forall w, v = AWarning w -> w <> MDone) -> tsim fresh (e1 ← open_db Main (map_path g) EOpenMain EBadMain;
          match e1 with
          | Some e => mret (Some e)
          | None => e2 ← open_input g;
            match e2 with
            | Some e => mret (Some e)
            | None => run_command E g (match v with AWarning w => Some w | _ => None end)
            end
          end)) as H.
      { intros Hv. eapply t_open; [apply o_main|]. eapply t_open; [apply o_input|].
        unfold run_command. eapply t_bind; [apply s_consent; destruct v; try done; intros [= ->]; by eapply Hv|].
        intros []; [|apply t_ret]. eapply t_bind; [apply Hc|]. intros ?. cbn beta. apply t_finish. }
      intros s [Hv Hs]. destruct v; [by apply H|by apply H|by eapply t_ret]. }
    intros s Hs. unfold thread_main, mbind, M_bind. destruct (H s Hs) as [Hd Hn].
    destruct Hn as [Hn|He]; [|rewrite He; destruct (compute_thread E g (calm W) s) as [[[?|]| |] ?]; split; by right].
    destruct (compute_thread E g W s) as [[o| |] s'] eqn:Er; cbn in *.
    - assert (disk (cn (db s')) = d \/ disk (cn (db s')) =
        disk (cn (db (match compute_thread E g (calm W) s with
                      | (Done a, s') => match a with Some e => log LError (MErr e) | None => mret tt end (calm W) s'
                      | (Panicked, s') => (Panicked, s') | (Killed, s') => (Killed, s') end).2))) as Hd'.
      { destruct Hd as [Hd|Hd]; [by left|]. right. rewrite Hd.
        destruct (compute_thread E g (calm W) s) as [[[?|]| |] ?]; done. }
      destruct o; split; try exact Hd'; left; [|exact Hn]. by apply (nd_snoc (TLog LError (MErr i)) s').
    - split; [|by left]. destruct Hd as [Hd|Hd]; [by left|]. right. cbn. rewrite Hd.
      destruct (compute_thread E g (calm W) s) as [[[?|]| |] ?]; done.
    - split; [|by left]. destruct Hd as [Hd|Hd]; [by left|]. right. cbn. rewrite Hd.
      destruct (compute_thread E g (calm W) s) as [[[?|]| |] ?]; done.
  Qed.
End atomic.

Lemma atomic_run E g W main input :
  let r := thread_main E g W (start main input) in
  let rc := thread_main E g (calm W) (start main input) in
  (acmd g <> CVacuum) -> (acmd g = CClone \/ acmd g = COverlay -> forall t rb, faults W t <> FFail rb) ->
  (final Main r.2 = main \/ final Main r.2 = final Main rc.2) /\
  ((LInfo, MDone) ∈ logs (trace r.2) -> r = rc).
Proof.
  intros r rc Hv Hf.
  assert (good main r rc) as [Hd Hn].
  { apply t_thread; [|split; [done|by intros ?%elem_of_nil]].
    assert (acmd g = CClone \/ acmd g = COverlay \/ acmd g = CDeleteBlocks \/ in_place (acmd g) = true) as H
      by (destruct (acmd g); try done; auto).
    assert (acmd g = CClone \/ acmd g = COverlay -> ~ failing W) as Hn.
    { intros Hc (t & rb & Ht). by eapply Hf. }
    destruct H as [H|[H|H]]; [apply s_copies; auto..|by apply s_edits]. }
  split; [exact Hd|]. intros Hi. by destruct Hn.
Qed.
