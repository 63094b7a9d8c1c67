(** Whole runs without faults: commands that edit blocks one by one *)
From Verif Require Import SysProofs SpecRun SpatialProofs MapProofs CodecProofs.

(** ** Edits as functions *)
Definition new_data (e : edit) (x : bytes) : bytes := match e with EWrite y => y | _ => x end.
Definition failed1 (e : edit) : Z := match e with EFail => 1 | _ => 0 end.
(** The map after editing the rows selected by [sel] with [f]. *)
Definition edit_map (sel : Z -> bytes -> bool) (f : Z -> bytes -> edit * counts) (m : mapdata) : mapdata :=
  map_imap (fun k x => Some (if sel k x then new_data (f k x).1 x else x)) m.
Lemma lookup_edit_map sel f m k :
  edit_map sel f m !! k = (fun x => if sel k x then new_data (f k x).1 x else x) <$> m !! k.
Proof. unfold edit_map. rewrite map_lookup_imap. by destruct (m !! k). Qed.

Lemma u64_add a b : u64 (u64 a + b) = u64 (a + b).
Proof. unfold u64. by rewrite Zplus_mod_idemp_l. Qed.

Section edit.
  Context (W : world) (HW : no_faults W) (HO : world_ok W).
  Context (late : bool) (body : Z -> bytes -> out (edit * counts)) (f : Z -> bytes -> edit * counts).

  Lemma h_inc_done d m i h u t :
    hoare W (st d m i h u t) inc_done
      (fun _ s => exists u', st d m i h u' t s /\ blocks_failed u' = blocks_failed u) never.
  Proof. eapply h_post; [apply h_put_status|]. intros ? s H. eexists. by split; [exact H|]. Qed.
  Lemma h_inc_failed d m i h u t :
    hoare W (st d m i h u t) inc_failed
      (fun _ s => exists u', st d m i h u' t s /\ blocks_failed u' = u64 (blocks_failed u + 1)) never.
  Proof. eapply h_post; [apply h_put_status|]. intros ? s H. eexists. by split; [exact H|]. Qed.

  Lemma h_edit_block d m i h u t c k x : m !! k = Some x -> body k x = Ret (f k x) ->
    0 <= blocks_failed u < 18446744073709551616 ->
    hoare W (st d m i h u t) (edit_block late body c k)
      (fun c' s => c' = (u64 (c.1 + (f k x).2.1), u64 (c.2 + (f k x).2.2)) /\
         exists u', blocks_failed u' = u64 (blocks_failed u + failed1 (f k x).1) /\
           st d (<[k := new_data (f k x).1 x]> m) i h u' t s) never.
  Proof.
    intros Hk Hb Hu. unfold edit_block.
    eapply h_bind with (Q1 := fun _ s => exists u', blocks_failed u' = blocks_failed u /\ st d m i h u' t s).
    { destruct late; [apply h_ret; intros s H; by exists u|].
      eapply h_post; [apply h_inc_done|]. intros ? s (u' & ? & ?). by exists u'. }
    intros ?. cbn beta. apply h_ex. intros u1. apply h_pre. intros Hu1.
    eapply h_bind; [by apply h_get_main|]. intros r. cbn beta. rewrite Hk.
    eapply h_weaken with (P := fun s => r = DOk x /\ st d m i h u1 t s); [|tauto].
    apply h_pre. intros ->.
    eapply h_bind with (Q1 := fun y s => y = x /\ st d m i h u1 t s); [by apply h_ret|].
    intros y. apply h_pre. intros ->.
    eapply h_bind with (Q1 := fun y s => y = f k x /\ st d m i h u1 t s); [by eapply h_lift|].
    intros y. apply h_pre. intros ->.
    eapply h_bind with (Q1 := fun _ s =>
       exists u', blocks_failed u' = u64 (blocks_failed u + failed1 (f k x).1) /\
           st d (<[k := new_data (f k x).1 x]> m) i h u' t s).
    - destruct (f k x).1 as [| |y]; simpl.
      + eapply h_post; [apply h_inc_failed|]. intros ? s (u' & H & E). exists u'.
        rewrite insert_id by done. split; [by rewrite E, Hu1|done].
      + rewrite insert_id by done. rewrite Z.add_0_r, u64_id by done.
        destruct late; [|apply h_ret; intros s H; by exists u1].
        eapply h_post; [apply h_inc_done|]. intros ? s (u' & H & E). exists u'. split; [congruence|done].
      + rewrite Z.add_0_r, u64_id by done.
        eapply h_bind; [by apply h_set_block|]. intros r. cbn beta.
        eapply h_weaken with (P := fun s => r = DOk tt /\ st d (<[k := y]> m) i h u1 t s); [|tauto].
        apply h_pre. intros ->. apply h_ret_bind.
        destruct late; [|apply h_ret; intros s H; by exists u1].
        eapply h_post; [apply h_inc_done|]. intros ? s (u' & H & E). exists u'. split; [congruence|done].
    - intros ?. cbn beta. apply h_ret. intros s H. by split.
  Qed.

  Lemma h_edit_loop d m i h u t rows : NoDup rows.*1 -> (forall r, r ∈ rows -> m !! r.1 = Some r.2) ->
    (forall r, r ∈ rows -> body r.1 r.2 = Ret (f r.1 r.2)) ->
    0 <= blocks_failed u < 18446744073709551616 ->
    hoare W (st d m i h u t) (foldM (edit_block late body) rows.*1 (0, 0))
      (fun c s => c = (u64 (zsum (fun r => (f r.1 r.2).2.1) rows), u64 (zsum (fun r => (f r.1 r.2).2.2) rows)) /\
         exists u' m', blocks_failed u' = u64 (blocks_failed u + zsum (fun r => failed1 (f r.1 r.2).1) rows) /\
           (forall k, m' !! k = (fun x => if bool_decide (k ∈ rows.*1) then new_data (f k x).1 x else x) <$> m !! k) /\
           st d m' i h u' t s) never.
  Proof.
    intros Hn Hm Hb Hu.
    eapply h_conseq; [apply h_foldM with (I := fun ks c s => exists l r, rows = l ++ r /\ ks = l.*1 /\
       c = (u64 (zsum (fun r => (f r.1 r.2).2.1) l), u64 (zsum (fun r => (f r.1 r.2).2.2) l)) /\
         exists u' m', blocks_failed u' = u64 (blocks_failed u + zsum (fun r => failed1 (f r.1 r.2).1) l) /\
           (forall k, m' !! k = (fun x => if bool_decide (k ∈ l.*1) then new_data (f k x).1 x else x) <$> m !! k) /\
           st d m' i h u' t s) (R := never)| | |]; [| | |done].
    - intros ds k rest c El s (l & r & Er & Ek & Ec & u' & m' & Hu' & Hm' & Hs).
      destruct r as [|[k' x] r].
      { rewrite app_nil_r in Er. subst. apply (f_equal length) in El. rewrite app_length in El. simpl in El. lia. }
      assert (k' = k /\ rest = r.*1) as [-> ->].
      { rewrite Er, fmap_app, Ek in El. apply app_inv_head in El. by inv El. }
      assert (m !! k = Some x) as Hmk by (apply (Hm (k, x)); rewrite Er; set_solver).
      assert (k ∉ l.*1) as Hkl.
      { rewrite Er, fmap_app in Hn. apply NoDup_app in Hn as (_ & Hn & _). intros H.
        apply (Hn k H). simpl. left. }
      assert (m' !! k = Some x) as Hx.
      { rewrite Hm', Hmk. simpl. by rewrite bool_decide_false. }
      assert (body k x = Ret (f k x)) as Hbk by (apply (Hb (k, x)); rewrite Er; set_solver).
      assert (0 <= blocks_failed u' < 18446744073709551616) as Hu2.
      { rewrite Hu'. unfold u64. apply Z.mod_pos_bound. lia. }
      generalize (h_edit_block d m' i h u' t c k x Hx Hbk Hu2 s Hs).
      destruct (edit_block late body c k W s) as [[c'| |] s']; [|done..].
      intros (-> & u2 & Hf & Hs'). exists (l ++ [(k, x)]), r.
      split; [by rewrite <-app_assoc|]. split; [by rewrite fmap_app, Ek|].
      split.
      { rewrite Ec, !zsum_app. simpl. by rewrite !u64_add, !Z.add_0_r. }
      exists u2, (<[k := new_data (f k x).1 x]> m'). split; [|split; [|done]].
      + rewrite Hf, Hu', u64_add, zsum_app. simpl. f_equal. lia.
      + intros k2. rewrite fmap_app. simpl. destruct (decide (k2 = k)) as [->|Hne].
        * rewrite lookup_insert, Hmk. simpl.
          rewrite bool_decide_true by set_solver. done.
        * rewrite lookup_insert_ne by done. rewrite Hm'. destruct (m !! k2); [|done]. simpl. f_equal.
          erewrite (bool_decide_ext (k2 ∈ l.*1)); [done|]. set_solver.
    - intros s Hs. exists [], rows. split; [done|]. split; [done|]. split; [done|].
      exists u, m. split; [by rewrite Z.add_0_r, u64_id|]. split; [|done].
      intros k. destruct (m !! k); [|done]. simpl. done.
    - intros c s (l & r & Er & Ek & H).
      assert (r = []) as ->.
      { rewrite Er, fmap_app in Ek. apply (f_equal length) in Ek. rewrite app_length, !fmap_length in Ek.
        destruct r; [done|simpl in Ek; lia]. }
      rewrite app_nil_r in Er. subst l. done.
  Qed.

  Lemma h_edit_blocks d m i h u t search a inv partial :
    (forall k x, m !! k = Some x -> row_sel search a inv partial k x = true -> body k x = Ret (f k x)) ->
    0 <= blocks_failed u < 18446744073709551616 ->
    hoare W (st d m i h u t) (edit_blocks late search a inv partial body)
      (fun c s => let rows := sel_rows search a inv partial (map_to_list m) in
         c = (u64 (zsum (fun r => (f r.1 r.2).2.1) rows), u64 (zsum (fun r => (f r.1 r.2).2.2) rows)) /\
         exists u', blocks_failed u' = u64 (blocks_failed u + zsum (fun r => failed1 (f r.1 r.2).1) rows) /\
           st d (edit_map (row_sel search a inv partial) f m) i h u' t s) never.
  Proof.
    intros Hb Hu. unfold edit_blocks. cbn zeta.
    eapply h_bind; [apply h_query with (im := ∅); [done..|by right]|]. intros keys. cbn beta.
    eapply h_weaken with (P := fun s =>
      (exists rs, row_list W m rs /\ keys = (sel_rows search a inv partial rs).*1) /\
      st d m i h (with_total u (Z.of_nat (length keys)) Ignore) t s); [|tauto].
    apply h_pre. intros (rs & [Hp _] & ->).
    set (rows0 := sel_rows search a inv partial rs).
    set (rows1 := sel_rows search a inv partial (map_to_list m)).
    assert (rows0 ≡ₚ rows1) as Hrows by (unfold rows0, rows1, sel_rows; by rewrite Hp).
    assert (forall r, r ∈ rows0 -> m !! r.1 = Some r.2 /\ row_sel search a inv partial r.1 r.2 = true) as Hin.
    { intros [k x] H. unfold rows0, sel_rows in H. apply elem_of_list_filter in H as [H1 H2]. split; [|done].
      rewrite Hp in H2. by apply elem_of_map_to_list in H2. }
    assert (NoDup rows0.*1) as Hn.
    { rewrite Hrows. unfold rows1, sel_rows. apply NoDup_fst_filter, NoDup_fst_map_to_list. }
    eapply h_bind; [apply h_set_state|]. intros ?. cbn beta.
    eapply h_bind; [apply h_edit_loop; [done| | |done]|].
    { intros r Hr. by apply Hin. }
    { intros r Hr. apply Hb; by apply Hin. }
    intros c. cbn beta. apply h_pre. intros ->. apply h_ex. intros u2. apply h_ex. intros m2.
    apply h_pre. intros Hu2. apply h_pre. intros Hm2.
    assert (m2 = edit_map (row_sel search a inv partial) f m) as ->.
    { apply map_eq. intros k. rewrite Hm2, lookup_edit_map. destruct (m !! k) as [x|] eqn:Ek; [|done].
      simpl. f_equal. destruct (row_sel search a inv partial k x) eqn:Es.
      - rewrite bool_decide_true; [done|]. apply elem_of_list_fmap. exists (k, x). split; [done|].
        unfold rows0, sel_rows. apply elem_of_list_filter. split; [done|]. rewrite Hp.
        by apply elem_of_map_to_list.
      - rewrite bool_decide_false; [done|]. intros H. apply elem_of_list_fmap in H as ([k' x'] & -> & H).
        apply Hin in H as [H1 H2]. simpl in *. congruence. }
    eapply h_bind; [apply h_set_state|]. intros ?. cbn beta. apply h_ret. intros s Hs.
    split; [by rewrite !(zsum_perm _ _ _ Hrows)|].
    eexists. split; [|exact Hs]. simpl. rewrite Hu2. simpl. by rewrite (zsum_perm _ _ _ Hrows).
  Qed.
End edit.
