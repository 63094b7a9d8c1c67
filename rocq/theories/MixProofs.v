(** Copying boxes of nodes from block to block: what clone and overlay do to one
    destination block *)
From Verif Require Import SpatialProofs MapProofs CodecProofs CodecRound BlockProofs
  QueryProofs UtilsProofs BodyProofs MetaProofs SpecCopy Spec.

Lemma claims_iff E x : is_valid_generated E x = true <-> claims_generated E x.
Proof.
  unfold is_valid_generated, claims_generated, MIN_BLOCK_VER, MAX_BLOCK_VER.
  destruct x as [|v [|f t]].
  - split; [done|]. intros (? & ? & ? & ? & ? & _). done.
  - split; [done|]. intros (? & ? & ? & ? & ? & _). done.
  - split.
    + destruct (_ || _) eqn:Ev; [done|]. intros H.
      destruct (b2z v =? 29) eqn:E29.
      * replace (29 <=? b2z v) with true in H by lia. destruct (zs_first E (f :: t)) as [fl|] eqn:Ez; [|done].
        exists v, f, t, fl. rewrite E29. split; [done|]. split; [lia|]. split; [done|lia].
      * replace (29 <=? b2z v) with false in H by lia.
        exists v, f, t, f. rewrite E29. split; [done|]. split; [lia|]. split; [done|lia].
    + intros (v' & f' & t' & fl & [= <- <- <-] & Hv & Hf & Hl).
      replace (_ || _) with false by lia.
      destruct (b2z v =? 29) eqn:E29.
      * replace (29 <=? b2z v) with true by lia. rewrite Hf. lia.
      * replace (29 <=? b2z v) with false by lia. subst. lia.
Qed.
Global Instance claims_dec E x : Decision (claims_generated E x).
Proof. destruct (decide (is_valid_generated E x = true)); [left|right]; by rewrite <-claims_iff. Defined.
Lemma claims_flags E x b : ext_ok E -> deserialize E x = Ok b -> claims_generated E x <-> ~ not_generated b.
Proof.
  intros HE Hd. rewrite <-claims_iff, (is_valid_generated_flags E x b HE Hd). unfold not_generated. lia.
Qed.
Lemma claims_false E x : is_valid_generated E x = false <-> ~ claims_generated E x.
Proof. rewrite <-claims_iff. destruct (is_valid_generated E x); naive_solver. Qed.

(** ** Blocks fit for copying *)
Record good (k : Z) (b : block) : Prop := {
  good_wf : wf_block b; good_named : named b; good_ids : ids_upto k (nimap b); good_meta : meta_in b }.

Lemma sound_good k b : wf_block b -> sound k b -> good k b.
Proof. intros H []. by split. Qed.
Lemma good_upto k k' b : k <= k' -> good k b -> good k' b.
Proof. intros Hk []. split; [done..| |done]. intros id n Hid. apply good_ids0 in Hid. simpl in *. lia. Qed.

(** Node [i] of [b'] is node [j] of [b]. *)
Definition raw_same (b' : block) (i : Z) (b : block) (j : Z) : Prop :=
  node_name b' i = node_name b j /\ node_param1 b' i = node_param1 b j /\
  node_param2 b' i = node_param2 b j /\ metadata b' !! i = metadata b !! j.
Lemma raw_refl b i : raw_same b i b i. Proof. done. Qed.
Lemma raw_trans a i b j c k : raw_same a i b j -> raw_same b j c k -> raw_same a i c k.
Proof. intros (?&?&?&?) (?&?&?&?). repeat split; congruence. Qed.
(** Nodes and metadata aside, [b'] is [b]. *)
Definition raw_rest (b b' : block) : Prop :=
  b' = with_metadata (with_nodes b (ndata b') (nimap b')) (metadata b').
Lemma raw_rest_refl b : raw_rest b b. Proof. by destruct b. Qed.
Lemma raw_rest_trans a b c : raw_rest a b -> raw_rest b c -> raw_rest a c.
Proof.
  unfold raw_rest. destruct a, b, c. unfold with_metadata, with_nodes; simpl. intros [=] [=]. by subst.
Qed.

Lemma raw_rest_norm b0 b nd nm : raw_rest b0 b -> let c := with_nodes b nd nm in
  norm c = with_metadata (with_nodes (norm b0) (ndata (norm c)) (nimap (norm c))) (metadata (norm c)).
Proof.
  unfold raw_rest. destruct b0, b. unfold with_metadata, with_nodes, norm; simpl. intros [=]. by subst.
Qed.

Definition mix (src dst : block) (sr dr : area) : out block :=
  let* b := merge_blocks src dst sr dr in
  let* md := merge_metadata (metadata src) (metadata b) sr dr in
  Ret (set_metadata b md).

Lemma meta_size (m : metadata_t) : map_Forall (fun i _ => 0 <= i < 4096) m -> Z.of_nat (size m) <= 4096.
Proof.
  intros H. enough (length (sorted_list m).*1 <= Z.to_nat 4096)%nat as Hl.
  { rewrite fmap_length, sorted_list_length in Hl. lia. }
  apply NoDup_bounded; [apply sorted_list_NoDup|]. apply Forall_forall.
  intros x ([id n] & -> & Hx%elem_of_sorted_list)%elem_of_list_fmap. apply H in Hx. simpl in *. lia.
Qed.

Lemma matching_range sr dr p : box_ok sr -> box_ok dr -> same_size sr dr -> inside dr p ->
  0 <= matching sr dr p < 4096.
Proof.
  rewrite !box_ok_corners. unfold same_size, matching, inside, nonempty. intros Hs Hd Hz Hp.
  injection Hz as Hx Hy Hz.
  apply pos_idx_range. unfold in_cube, plus, minus; simpl in *. lia.
Qed.

Lemma mix_ok src dst sr dr ks kd : good ks src -> good kd dst -> box_ok sr -> box_ok dr -> same_size sr dr ->
  ks + kd + 1 <= 65534 -> 0 <= ks -> 0 <= kd ->
  exists b, mix src dst sr dr = Ret b /\ good (ks + kd + 1) b /\ raw_rest dst b /\
    forall i, 0 <= i < 4096 ->
      if decide (inside dr (idx_pos i)) then raw_same b i src (matching sr dr (idx_pos i))
      else raw_same b i dst i.
Proof.
  intros Hs Hd Hbs Hbd Hsz Hk Hks Hkd.
  pose proof (wf_lens _ (good_wf _ _ Hs)) as Hls. pose proof (wf_lens _ (good_wf _ _ Hd)) as Hld.
  destruct (merge_ok src dst sr dr ks kd) as (ns & p1 & p2 & nm & Em & Hl & Hn & Hu & Hnm & Hi);
    [done..|apply Hs|apply Hd|apply Hs|apply Hd|lia|].
  destruct (merge_metadata_ok (metadata src) (metadata dst) sr dr Hbs Hbd Hsz (good_meta _ _ Hs) (good_meta _ _ Hd))
    as (md & Emd & Hmd).
  exists (set_metadata (with_nodes dst (ND ns p1 p2) nm) md).
  unfold mix. rewrite Em. cbn [bindO]. change (metadata (with_nodes _ _ _)) with (metadata dst). rewrite Emd.
  split; [done|].
  assert (map_Forall (fun i _ => 0 <= i < 4096) md) as Hmr.
  { intros i e. rewrite Hmd. case_decide as Hc; [by destruct Hc|]. intros He. by apply (good_meta _ _ Hd) in He. }
  split; [split|].
  - apply wf_set_metadata.
    + apply wf_with_nodes; [apply Hd| |].
      * destruct Hl as (Hl1 & Hl2 & Hl3). split; [done|]. split; [done|]. split; [done|].
        apply Forall_forall. intros id Hid. destruct (Hn id Hid) as [n Hin]. apply Hu in Hin. simpl in Hin.
        unfold u16_ok. lia.
      * split; [pose proof (nimap_size_upto nm (ks + kd + 1) ltac:(lia) Hu); lia|].
        intros id n Hid. split; [apply Hu in Hid; simpl in Hid; unfold u16_ok; lia|].
        destruct (Hnm id n Hid) as [[k Hkk]|[k Hkk]].
        -- by apply (wf_nm _ (good_wf _ _ Hs)) in Hkk as [_ ?].
        -- by apply (wf_nm _ (good_wf _ _ Hd)) in Hkk as [_ ?].
    + split; [pose proof (meta_size md Hmr); lia|]. intros i e He.
      split; [apply Hmr in He; simpl in He; unfold u16_ok; lia|].
      rewrite Hmd in He. case_decide.
      * by apply (wf_md _ (good_wf _ _ Hs)) in He as [_ ?].
      * by apply (wf_md _ (good_wf _ _ Hd)) in He as [_ ?].
  - done.
  - done.
  - done.
  - split; [done|]. intros i Hir. specialize (Hi i Hir). specialize (Hmd i). destruct (decide (inside dr (idx_pos i))) as [Hc|Hc].
    + destruct Hi as (H1 & H2 & H3). split; [done|]. split; [done|]. split; [done|].
      simpl. rewrite Hmd. by rewrite decide_True.
    + destruct Hi as (H1 & H2 & H3). split; [done|]. split; [done|]. split; [done|].
      simpl. rewrite Hmd. rewrite decide_False; [done|]. by intros [_ ?].
Qed.

(** ** Cleaning and writing *)
Lemma norm_lookup v m i : norm_metadata v m !! i = (m !! i : option node_meta) ≫= kept v.
Proof.
  unfold norm_metadata, kept. destruct (28 <=? v).
  - unfold id. destruct (m !! i) as [e|] eqn:Em; simpl.
    + case_decide as Hb.
      * apply map_filter_lookup_None. right. intros e' He'. simpl. assert (e' = e) by congruence. subst. tauto.
      * by apply map_filter_lookup_Some.
    + apply map_filter_lookup_None. by left.
  - rewrite lookup_fmap. destruct (m !! i) as [e|] eqn:Em; simpl.
    + case_decide as Hb.
      * rewrite (proj2 (map_filter_lookup_None _ _ _)); [done|]. right. intros e' He'. simpl.
        assert (e' = e) by congruence. subst. tauto.
      * rewrite (proj2 (map_filter_lookup_Some _ _ _ e)); [done|]. done.
    + rewrite (proj2 (map_filter_lookup_None _ _ _)); [done|]. by left.
Qed.
Lemma kept_idem v (o : option node_meta) : (o ≫= kept v) ≫= kept v = o ≫= kept v.
Proof.
  destruct o as [e|]; [|done]. simpl.
  assert (norm_metadata v (norm_metadata v {[0 := e]}) !! 0 = norm_metadata v {[0 := e]} !! 0) as H
    by by rewrite norm_metadata_idem.
  rewrite !norm_lookup, lookup_singleton in H. exact H.
Qed.

(** The result of cleaning and storing [b], itself made from [b0]. *)
Lemma stored_mix E b0 b : ext_ok E -> full_writes E -> good 65534 b -> raw_rest b0 b ->
  exists d b', (let* c := clean_name_id_map b in serialize E c) = Ret d /\ deserialize E d = Ok b' /\
    same_rest b0 b' /\ version b' = version b0 /\ SpecNodes.tidy b' /\ norm b' = b' /\
    forall i sb j, raw_same b i sb j -> same_node b' i sb j.
Proof.
  intros HE Hf Hb Hr.
  destruct (clean_wf b (good_wf _ _ Hb) (good_named _ _ Hb) (good_ids _ _ Hb)) as (ns & nm & Ec & Hw & Hn & Ht & Hnn).
  set (c := with_nodes b (ND ns (param1 (ndata b)) (param2 (ndata b))) nm) in *.
  destruct (block_roundtrip E c HE Hf Hw) as (d & Es & Ed).
  exists d, (norm c). rewrite Ec. cbn [bindO]. split; [done|]. split; [done|].
  assert (version b = version b0) as Hv by by rewrite Hr.
  split; [split; [|split]|split; [|split; [|split]]].
  - rewrite norm_idem. by apply raw_rest_norm.
  - done.
  - intros i e. change (metadata (norm c)) with (norm_metadata (version b) (metadata b)).
    rewrite norm_lookup. destruct (metadata b !! i) as [e0|] eqn:Ei; [|done].
    intros _. by apply (good_meta _ _ Hb) in Ei.
  - done.
  - exact Ht.
  - by rewrite norm_idem.
  - intros i sb j (H1 & H2 & H3 & H4). split; [by rewrite <-H1, <-Hnn|]. split; [done|]. split; [done|].
    change (metadata (norm c)) with (norm_metadata (version b) (metadata b)).
    change (version (norm c)) with (version b). by rewrite norm_lookup, kept_idem, H4.
Qed.

(** A block that stays as it is *)
Lemma same_node_refl b i : same_node b i b i. Proof. done. Qed.
Lemma same_rest_refl b : named b -> meta_in b -> same_rest b b.
Proof. intros. split; [by destruct b|done]. Qed.
