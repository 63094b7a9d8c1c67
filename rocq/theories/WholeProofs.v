(** Runs of the commands on whole blocks: deleteblocks *)
From Verif Require Import SpecCmd QueryProofs RunProofs ThreadProofs EditProofs SysProofs MapProofs CodecProofs.
From Verif Require Import Spec.

Section delete.
  Context (W : world) (HW : no_faults W) (HO : world_ok W).

  Lemma h_delete_loop d m i h u t keys :
    hoare W (st d m i h u t) (foldM delete_step keys tt)
      (fun _ s => exists u', blocks_failed u' = blocks_failed u /\
         st d (filter (fun kx => kx.1 ∉ keys) m) i h u' t s) never.
  Proof.
    eapply h_conseq; [apply h_foldM with (I := fun ks _ s => exists u', blocks_failed u' = blocks_failed u /\
         st d (filter (fun kx => kx.1 ∉ ks) m) i h u' t s) (R := never)| | |]; [| |done|done].
    - intros l k r [] El. apply h_ex. intros u1. apply h_pre. intros Hu. unfold delete_step.
      eapply h_bind; [by apply h_inc_done|]. intros ?. cbn beta. apply h_ex. intros u2.
      eapply h_weaken with (P := fun s => blocks_failed u2 = blocks_failed u1 /\ _ s); [|intros s [? ?]; split; eassumption].
      apply h_pre. intros Hu2.
      eapply h_bind; [by apply h_delete_block|]. intros x. cbn beta.
      eapply h_weaken with (P := fun s => x = DOk tt /\ _ s); [|intros s [? ?]; split; eassumption].
      apply h_pre. intros ->. apply h_ret. intros s H. exists u2. split; [congruence|].
      assert (filter (fun kx : Z * bytes => kx.1 ∉ l ++ [k]) m =
        delete k (filter (fun kx : Z * bytes => kx.1 ∉ l) m)) as ->; [|exact H].
      apply map_eq. intros j. destruct (decide (j = k)) as [->|Hj].
      + rewrite lookup_delete. apply map_filter_lookup_None. right. intros y _ Hy. simpl in Hy. set_solver.
      + rewrite lookup_delete_ne by done. apply option_eq. intros y.
        rewrite !map_filter_lookup_Some. simpl. set_solver.
    - intros s Hs. exists u. split; [done|].
      assert (filter (fun kx : Z * bytes => kx.1 ∉ []) m = m) as ->; [|exact Hs].
      apply map_eq. intros j. apply option_eq. intros y. rewrite map_filter_lookup_Some. set_solver.
  Qed.
End delete.

Lemma delblocks_run E W g main input pos : setting E W g main pos -> acmd g = CDeleteBlocks ->
  exists main', run_ok E g W main input main' (warnings g ++ closing 0) /\
    (forall k, main !! k = None -> main' !! k = None) /\
    forall k bp, block_at k bp ->
      (visit (aarea g) (invert g) false bp -> main' !! k = None) /\
      (~ visit (aarea g) (invert g) false bp -> main' !! k = main !! k).
Proof.
  intros [HE Hfull HW HO Hsup Hleg Hrdy Hkeys] Hcmd.
  pose proof (area_ok_args g Hsup Hleg) as Ha.
  set (sel := row_sel [] (aarea g) (invert g) false).
  assert (forall k x, main !! k = Some x -> sel k x = true <-> visit (aarea g) (invert g) false (pos k)) as Hsel.
  { intros k x Hk. unfold sel. rewrite row_sel_iff; [|apply Hkeys; by eexists|done].
    split; [tauto|]. intros H. split; [done|]. by left. }
  destruct (thread_run W HW E g main input (fun u m' l =>
    blocks_failed u = 0 /\ l = [] /\
    m' = filter (fun kx => ~ sel kx.1 kx.2 = true) main)) as (u & m' & l & (Hu & -> & ->) & Hrun); [done..| |].
  - intros t. unfold cmd_func. rewrite Hcmd. unfold delete_blocks.
    eapply h_bind; [apply h_query with (im := ∅); [done..|by right]|]. intros keys. cbn beta.
    eapply h_weaken with (P := fun s =>
      (exists rs, row_list W main rs /\ keys = (sel_rows [] (aarea g) (invert g) false rs).*1) /\
      _ s); [|intros s [? ?]; split; eassumption].
    apply h_pre. intros (rs & [Hp _] & Ek).
    eapply h_bind; [apply h_set_state|]. intros ?. cbn beta.
    eapply h_bind; [by apply h_delete_loop|]. intros ?. cbn beta. apply h_ex. intros u. apply h_pre. intros Hu.
    eapply h_post; [apply h_set_state|]. intros ? s H. eexists _, _, []. rewrite app_nil_r. split; [|exact H].
    split; [exact Hu|]. split; [done|]. apply map_eq. intros k. apply option_eq. intros x.
    rewrite !map_filter_lookup_Some.
    split; intros [Hk H']; (split; [done|]); simpl in *.
    + intros Hs. apply H'. rewrite Ek. apply elem_of_list_fmap. exists (k, x). split; [done|].
      unfold sel_rows. apply elem_of_list_filter. split; [done|]. rewrite Hp. by apply elem_of_map_to_list.
    + intros Hin. apply H'. rewrite Ek in Hin. apply elem_of_list_fmap in Hin as ([k' x'] & -> & Hin).
      unfold sel_rows in Hin. apply elem_of_list_filter in Hin as [Hs Hin]. rewrite Hp in Hin.
      apply elem_of_map_to_list in Hin. simpl in *. unfold sel. congruence.
  - rewrite Hu in Hrun. eexists. split; [exact Hrun|]. split; [intros k Hk; apply map_filter_lookup_None; by left|].
    intros k bp Hb. split; intros Hv.
    + apply map_filter_lookup_None. destruct (main !! k) as [x|] eqn:Ek; [right|by left].
      intros y [= <-] Hn. simpl in Hn. apply Hn, Hsel; [done|].
      by rewrite (block_at_fun k (pos k) bp (Hkeys k ltac:(by eexists)) Hb).
    + apply option_eq. intros x. rewrite map_filter_lookup_Some. split; [tauto|]. intros Hk. split; [done|].
      simpl. intros Hs. apply Hsel in Hs; [|done]. apply Hv.
      by rewrite <-(block_at_fun k (pos k) bp (Hkeys k ltac:(by eexists)) Hb).
Qed.

(** ** Visited keys *)
Lemma sublist_sel names a inv partial rs : sublist (sel_rows names a inv partial rs).*1 rs.*1.
Proof.
  unfold sel_rows. induction rs as [|r rs IH]; [constructor|]. rewrite filter_cons.
  destruct (decide _); simpl; by constructor.
Qed.
Lemma sublist_nodup {A} (l k : list A) : sublist l k -> NoDup k -> NoDup l.
Proof.
  induction 1 as [|x l k Hl IH|x l k Hl IH]; intros Hk; [done|apply NoDup_cons in Hk as [Hx Hk]..].
  - apply NoDup_cons. split; [|auto]. intros H. apply Hx. by eapply elem_of_submseteq; [|apply sublist_submseteq].
  - auto.
Qed.

Lemma query_exact W s w d m names a inv partial : no_faults W -> world_ok W -> area_ok a ->
  db s = MDB (Conn d (Some m)) true -> in_tr (get_db w s) = true ->
  keys_ok (view (cn (get_db w s))) ->
  exists keys s', query_keys w names a inv partial W s = (Done keys, s') /\
    db s' = db s /\ idb s' = idb s /\ NoDup keys /\
    (forall k, k ∈ keys <-> exists bp x, block_at k bp /\ view (cn (get_db w s)) !! k = Some x /\
       visit a inv partial bp /\ mentions names x) /\
    exists t, sublist keys (rows W t (view (cn (get_db w s)))).*1.
Proof.
  intros HW HO Ha Hdb Hin Hkeys. set (v := view (cn (get_db w s))) in *.
  set (im := view (cn (idb s))).
  assert (v = seen w m im) as Hv by (destruct w; unfold v, im; simpl; [by rewrite Hdb|done]).
  assert (reading (idb s) im \/ w = Main) as Hr by (destruct w; [by right|left; done]).
  pose proof (h_query W HW HO d m (idb s) im (has_idb s) (status s) (logs (trace s)) w names a inv partial Hr s
    ltac:(done)) as Hq.
  destruct (query_keys w names a inv partial W s) as [[keys| |] s']; [|done..].
  destruct Hq as ((Hs1 & Hs2 & _) & rs & [Hp [t Ht]] & Ek). rewrite <-Hv in Hp, Ht.
  exists keys, s'. split; [done|]. split; [congruence|]. split; [done|].
  split; [|split].
  - rewrite Ek. unfold sel_rows.
    assert (NoDup rs.*1) as Hn by (rewrite Hp; apply NoDup_fst_map_to_list).
    eapply sublist_nodup; [apply sublist_sel|]. exact Hn.
  - intros k. rewrite Ek, elem_of_list_fmap. split.
    + intros ([k' x] & -> & [Hs Hk]%elem_of_list_filter). simpl in *.
      rewrite Hp in Hk. apply elem_of_map_to_list in Hk.
      destruct (Hkeys k' ltac:(by eexists)) as [bp Hb]. exists bp, x.
      rewrite row_sel_iff in Hs by done. tauto.
    + intros (bp & x & Hb & Hk & Hvis & Hm). exists (k, x). split; [done|].
      unfold sel_rows. apply elem_of_list_filter. simpl. split.
      * rewrite row_sel_iff by done. done.
      * rewrite Hp. by apply elem_of_map_to_list.
  - exists t. rewrite Ek, <-Ht. apply sublist_sel.
Qed.
