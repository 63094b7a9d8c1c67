(** One block at a time: selected indices, counting, saving an edited block *)
From Verif Require Import SpecCmd SpatialProofs MapProofs CodecProofs CodecRound BlockProofs
  QueryProofs UtilsProofs RunProofs EditProofs Spec.

(** ** Selected indices *)

Lemma area_idx_enum a : area_idx a = pos_idx <$> enum_area a.
Proof.
  unfold area_idx, enum_area, enum_vol. generalize (zrange (vz (amin a)) (vz (amax a))). intros lz.
  induction lz as [|z lz IH]; [done|]. csimpl. rewrite fmap_app, <-IH. f_equal.
  unfold enum_plane. generalize (zrange (vy (amin a)) (vy (amax a))). intros ly.
  clear. induction ly as [|y ly IH]; [done|]. csimpl. rewrite fmap_app, <-IH. f_equal.
  unfold enum_row. generalize (zrange (vx (amin a)) (vx (amax a))). intros lx.
  clear. induction lx as [|x lx IH]; [done|]. csimpl. rewrite <-IH. unfold pos_idx; simpl. f_equal. lia.
Qed.

Lemma NoDup_fmap_on {A B} (f : A -> B) l : (forall x y, x ∈ l -> y ∈ l -> f x = f y -> x = y) ->
  NoDup l -> NoDup (f <$> l).
Proof.
  intros Hf Hl. induction Hl as [|x l Hx Hl IH]; simpl; constructor.
  - intros (y & E & Hy)%elem_of_list_fmap. apply Hf in E; [by subst|set_solver..].
  - apply IH. intros y z Hy Hz. apply Hf; set_solver.
Qed.

Lemma pos_idx_inj p q : in_cube p -> in_cube q -> pos_idx p = pos_idx q -> p = q.
Proof. intros Hp Hq E. rewrite <-(idx_pos_idx p Hp), <-(idx_pos_idx q Hq). by rewrite E. Qed.

Lemma area_idx_NoDup a : box_ok a -> NoDup (area_idx a).
Proof.
  intros Ha. rewrite area_idx_enum. apply NoDup_fmap_on; [|apply enum_area_NoDup].
  intros p q Hp%elem_of_enum_area Hq%elem_of_enum_area.
  apply pos_idx_inj; by eapply box_ok_cube.
Qed.
Lemma elem_of_area_idx' a i : box_ok a -> i ∈ area_idx a <-> 0 <= i < 4096 /\ inside a (idx_pos i).
Proof.
  intros Ha. rewrite elem_of_area_idx. split.
  - intros (p & Hp & ->). pose proof (box_ok_cube _ _ Ha Hp) as Hc.
    split; [by apply pos_idx_range|]. by rewrite idx_pos_idx.
  - intros [Hi Hin]. exists (idx_pos i). split; [done|]. symmetry. apply pos_idx_pos. lia.
Qed.

Lemma partly_spec a inv bp : key_range bp -> nonempty a -> area_within 100000 a ->
  visit (Some a) inv true bp ->
  if partly a bp then
    exists part, rel_block_overlap a bp = Some part /\ box_ok part /\
      forall i, 0 <= i < 4096 -> inside part (idx_pos i) <-> inside a (abs_pos bp i)
  else forall i, 0 <= i < 4096 -> selected (Some a) inv (abs_pos bp i).
Proof.
  intros Hr Hne Ha Hv. pose proof (key_range_within bp Hr) as Hw.
  assert (within 50000000 bp) as Hw2 by (unfold key_range, within in *; lia).
  pose proof (area_ok_big a Ha) as Hb.
  assert (forall i, 0 <= i < 4096 -> node_in_block bp (abs_pos bp i)) as Hnode.
  { intros i Hi. apply in_cube_node. by apply idx_pos_cube. }
  pose proof (contains_block_iff a bp Hw) as Hc. pose proof (touches_block_iff a bp Hw Hne) as Ht.
  unfold partly. destruct (contains_block a bp) eqn:Ec, (touches_block a bp) eqn:Et; simpl.
  - intros i Hi. assert (inside a (abs_pos bp i)) as Hin by (by apply Hc, Hnode).
    destruct inv; [|done]. destruct Hv as (q & Hq & Hn). by destruct Hn; apply Hc.
  - exfalso. assert (false = true); [|done]. apply Ht. exists (block_corner bp).
    assert (node_in_block bp (block_corner bp)) by (unfold node_in_block, block_corner; simpl; lia).
    split; [done|]. by apply Hc.
  - pose proof (relative_overlap a bp Hw2 Hb) as Ho.
    destruct (rel_block_overlap a bp) as [part|].
    + exists part. split; [done|]. destruct Ho as (Hn & Hcube & Hin). split; [by split|].
      intros i Hi. rewrite Hin. pose proof (Hnode i Hi). unfold abs_pos in *. tauto.
    + destruct (proj1 Ht eq_refl) as (q & Hq & Hi). by destruct (Ho q).
  - intros i Hi. destruct inv.
    + intros Hin. assert (false = true); [|done]. apply Ht. exists (abs_pos bp i). by split; [apply Hnode|].
    + destruct Hv as (q & Hq & Hin). assert (false = true); [|done]. apply Ht. by exists q.
Qed.

(** The indices of a box (or outside it), as a list *)
Lemma box_indices part (inv : bool) bp a : box_ok part ->
  (forall i, 0 <= i < 4096 -> inside part (idx_pos i) <-> inside a (abs_pos bp i)) ->
  exists l, (if inv then inv_indices part else Ret (area_idx part)) = Ret l /\ NoDup l /\
    forall i, i ∈ l <-> 0 <= i < 4096 /\ selected (Some a) inv (abs_pos bp i).
Proof.
  intros Hp Hin. destruct inv.
  - destruct (inverse_iteration part) as (l & E & Hl & Hn & _); [by apply Hp..|].
    exists l. split; [done|]. split; [done|]. intros i. rewrite Hl. simpl.
    split; intros [Hi H]; (split; [done|]); intros H'; by apply H, Hin.
  - exists (area_idx part). split; [done|]. split; [by apply area_idx_NoDup|].
    intros i. rewrite elem_of_area_idx' by done. simpl.
    split; intros [Hi H]; (split; [done|]); by apply Hin.
Qed.

(** Counting over such a list *)
Lemma count_list (l : list Z) (S P : Z -> Prop) `{forall i, Decision (P i)} {HQ : forall i, Decision (S i /\ P i)} :
  NoDup l -> (forall i, i ∈ l <-> 0 <= i < 4096 /\ S i) ->
  Z.of_nat (length (filter P l)) = count_if (fun i => S i /\ P i).
Proof.
  intros Hn Hl. unfold count_if. f_equal. apply Permutation_length, NoDup_Permutation.
  - by apply NoDup_filter.
  - apply NoDup_filter, NoDup_seqZ.
  - intros i. rewrite !elem_of_list_filter, Hl, elem_of_seqZ. split; intros; intuition lia.
Qed.
Lemma count_if_ext (P Q : Z -> Prop) {HP : forall i, Decision (P i)} {HQ : forall i, Decision (Q i)} :
  (forall i, 0 <= i < 4096 -> P i <-> Q i) -> count_if P = count_if Q.
Proof.
  intros H. unfold count_if. f_equal. apply Permutation_length, NoDup_Permutation; [apply NoDup_filter, NoDup_seqZ..|].
  intros i. rewrite !elem_of_list_filter, elem_of_seqZ. split; intros [? ?]; (split; [|done]); apply H; (lia || done).
Qed.
Lemma count_if_bound (P : Z -> Prop) {HP : forall i, Decision (P i)} : 0 <= count_if P <= 4096.
Proof.
  unfold count_if. pose proof (filter_length P (seqZ 0 4096)) as H.
  assert (length (seqZ 0 4096) = Z.to_nat 4096) as E by apply seqZ_length. rewrite E in H.
  split; [lia|]. transitivity (Z.of_nat (Z.to_nat 4096)); lia.
Qed.
Lemma count_if_none (P : Z -> Prop) {HP : forall i, Decision (P i)} :
  (forall i, 0 <= i < 4096 -> ~ P i) -> count_if P = 0.
Proof.
  intros H. unfold count_if. destruct (filter P (seqZ 0 4096)) as [|x l] eqn:E; [done|].
  assert (x ∈ filter P (seqZ 0 4096)) as Hx by (rewrite E; left).
  apply elem_of_list_filter in Hx as [Hx Hr%elem_of_seqZ]. by destruct (H x).
Qed.
Lemma count_if_zero (P : Z -> Prop) {HP : forall i, Decision (P i)} :
  count_if P = 0 -> forall i, 0 <= i < 4096 -> ~ P i.
Proof.
  intros H i Hi Hp. unfold count_if in H. assert (i ∈ filter P (seqZ 0 4096)) as Hin.
  { apply elem_of_list_filter. split; [done|]. apply elem_of_seqZ. lia. }
  destruct (filter P (seqZ 0 4096)); [by apply elem_of_nil in Hin|done].
Qed.
Lemma count_if_all (P : Z -> Prop) {HP : forall i, Decision (P i)} :
  (forall i, 0 <= i < 4096 -> P i) -> count_if P = 4096.
Proof.
  intros H. transitivity (count_if (fun _ => True)).
  { apply count_if_ext. intros i Hi. split; [done|]. by intros; apply H. }
  unfold count_if. assert (forall l : list Z, filter (fun _ => True) l = l) as ->.
  { induction l as [|x l IH]; [done|]. rewrite filter_cons. rewrite decide_True by done. by rewrite IH. }
  rewrite seqZ_length. lia.
Qed.

(** ** Loops over indices *)
Lemma fill_loop {A} (ns : list A) v idxs : (forall i, i ∈ idxs -> 0 <= i < Z.of_nat (length ns)) ->
  exists ns', foldO (fun acc i => vset acc i v) idxs ns = Ret ns' /\ length ns' = length ns /\
    forall j, 0 <= j -> ns' !! Z.to_nat j = if decide (j ∈ idxs) then Some v else ns !! Z.to_nat j.
Proof.
  intros Hi. set (P := fun (d : list Z) (a : list A) => length a = length ns /\
    forall j, 0 <= j -> a !! Z.to_nat j = if decide (j ∈ d) then Some v else ns !! Z.to_nat j).
  apply (foldO_inv _ P); unfold P; clear P.
  - split; [done|]. intros j Hj. by rewrite decide_False by apply not_elem_of_nil.
  - intros d x r a Ed [Hl Ha]. destruct (Hi x) as [Hx0 Hx1]; [rewrite Ed; set_solver|].
    rewrite vset_Ret by lia. eexists. split; [done|]. split; [by rewrite insert_length|].
    intros j Hj. destruct (decide (j = x)) as [->|Hne].
    + rewrite list_lookup_insert by lia. by rewrite decide_True by set_solver.
    + rewrite list_lookup_insert_ne by lia. rewrite Ha by done.
      destruct (decide (j ∈ d)); [rewrite decide_True by set_solver|rewrite decide_False by set_solver]; done.
Qed.

Lemma area_idx_length a : box_ok a -> Z.of_nat (length (area_idx a)) = volume a.
Proof.
  intros Ha. rewrite area_idx_enum, fmap_length, enum_area_length.
  pose proof (proj1 (box_ok_corners a) Ha) as (Hn & H1 & H2).
  rewrite volume_eq; [|done|unfold area_within, within, nonempty in *; lia].
  unfold area_size, nonempty in *. rewrite !Nat2Z.inj_mul, !Z2Nat.id by lia. lia.
Qed.
Lemma volume_count a P {HP : forall i, Decision (P i)} : box_ok a ->
  (forall i, 0 <= i < 4096 -> inside a (idx_pos i) <-> P i) -> volume a = count_if P.
Proof.
  intros Ha HPi. rewrite <-area_idx_length by done. unfold count_if. f_equal.
  apply Permutation_length, NoDup_Permutation.
  - by apply area_idx_NoDup.
  - apply NoDup_filter, NoDup_seqZ.
  - intros i. rewrite elem_of_area_idx', elem_of_list_filter, elem_of_seqZ by done.
    split; [intros [Hi Hin]|intros [Hin Hi]]; (split; [|lia]) || (split; [lia|]); by apply HPi; [lia|].
Qed.
Lemma count_if_not P {HP : forall i, Decision (P i)} : count_if (fun i => ~ P i) = 4096 - count_if P.
Proof.
  enough (forall l, length (filter (fun i => ~ P i) l) + length (filter P l) = length l)%nat as H.
  { unfold count_if. specialize (H (seqZ 0 4096)). rewrite seqZ_length in H. lia. }
  induction l as [|x l IH]; [done|]. rewrite !filter_cons. repeat case_decide; simpl; try tauto; lia.
Qed.
Lemma count_if_pos P {HP : forall i, Decision (P i)} i : 0 <= i < 4096 -> P i -> 0 < count_if P.
Proof.
  intros Hi Hp. pose proof (count_if_bound P). enough (count_if P <> 0) by lia. unfold count_if.
  destruct (filter P (seqZ 0 4096)) as [|x l] eqn:E; [|simpl; lia].
  assert (i ∈ filter P (seqZ 0 4096)) as Hx; [|by rewrite E in Hx; apply elem_of_nil in Hx].
  apply elem_of_list_filter. split; [done|]. apply elem_of_seqZ. lia.
Qed.

(** ** Saving *)

Lemma write_ok E b c : ext_ok E -> full_writes E -> wf_block b ->
  exists d, write_block E b c = Ret (EWrite d, c) /\ deserialize E d = Ok (norm b).
Proof.
  intros HE Hf Hb. destruct (block_roundtrip E b HE Hf Hb) as (d & Hs & Hd). exists d.
  unfold write_block. by rewrite Hs.
Qed.

Lemma wf_with_nodes b nd nm : wf_block b -> wf_nodes nd -> wf_nimap nm -> wf_block (with_nodes b nd nm).
Proof. intros [] ? ?. by split. Qed.

Lemma wf_lens b : wf_block b -> node_lens b.
Proof. intros Hb. destruct (wf_nd b Hb) as (? & ? & ? & _). done. Qed.

Lemma nimap_size_upto (m : nimap_t) k : 0 <= k + 1 -> ids_upto k m -> Z.of_nat (size m) <= k + 1.
Proof.
  intros Hk Hm. enough (length (sorted_list m).*1 <= Z.to_nat (k + 1))%nat as H.
  { rewrite fmap_length, sorted_list_length in H. lia. }
  apply NoDup_bounded; [apply sorted_list_NoDup|]. apply Forall_forall.
  intros x ([id n] & -> & Hx%elem_of_sorted_list)%elem_of_list_fmap. apply Hm in Hx. simpl in *. lia.
Qed.

Lemma clean_wf b : wf_block b -> named b -> ids_upto 65534 (nimap b) ->
  exists ns nm, clean_name_id_map b = Ret (with_nodes b (ND ns (param1 (ndata b)) (param2 (ndata b))) nm) /\
    wf_block (with_nodes b (ND ns (param1 (ndata b)) (param2 (ndata b))) nm) /\
    named (with_nodes b (ND ns (param1 (ndata b)) (param2 (ndata b))) nm) /\
    tidy (with_nodes b (ND ns (param1 (ndata b)) (param2 (ndata b))) nm) /\
    forall i, node_name (with_nodes b (ND ns (param1 (ndata b)) (param2 (ndata b))) nm) i = node_name b i.
Proof.
  intros Hb Hn Hu. pose proof (wf_lens b Hb) as Hl.
  destruct (clean_keeps b Hl Hn Hu) as (b' & E & (ns & nm & ->) & Hl' & Hn' & Hname & Ht).
  exists ns, nm. split; [done|]. split; [|done].
  pose proof (tidy_upto _ Hn' Hl' Ht) as Hu'. cbn [nimap with_nodes] in Hu'.
  assert (forall id n, nm !! id = Some n -> u16_ok id) as Hids.
  { intros id n Hid. apply Hu' in Hid. simpl in Hid. unfold u16_ok. lia. }
  apply wf_with_nodes; [done| |].
  - destruct (wf_nd b Hb) as (_ & ? & ? & _). destruct Hl' as (Hl' & _). cbn in Hl'.
    split; [done|]. split; [done|]. split; [done|]. apply Forall_forall. intros id Hid.
    destruct (Hn' id Hid) as [n Hin]. cbn in Hin. by eapply Hids.
  - split; [pose proof (nimap_size_upto nm 65534); lia|]. intros id n Hid. split; [by eapply Hids|].
    destruct Ht as (_ & Hused & _). destruct (proj1 (elem_of_list_lookup _ _) (Hused id ltac:(by eexists))) as [i Hi].
    assert (node_name (with_nodes b (ND ns (param1 (ndata b)) (param2 (ndata b))) nm) (Z.of_nat i) = Some n) as Hnn.
    { unfold node_name. rewrite Nat2Z.id. cbn [ndata with_nodes nodes nimap] in *. by rewrite Hi. }
    rewrite Hname in Hnn. unfold node_name in Hnn.
    destruct (nodes (ndata b) !! Z.to_nat (Z.of_nat i)); [|done]. simpl in Hnn.
    by apply (wf_nm b Hb) in Hnn as [_ ?].
Qed.

Lemma renamed_norm d (P : Z -> Prop) {HP : forall i, Decision (P i)} node b ns nm :
  let b' := with_nodes b (ND ns (param1 (ndata b)) (param2 (ndata b))) nm in
  named b' -> kept_tight d b b' ->
  (forall i, 0 <= i < 4096 -> node_name b' i = if decide (P i) then Some node else node_name b i) ->
  renamed d P node b (norm b').
Proof.
  intros b' Hn Ht Hi. split; [|done]. unfold same_but_nodes. by rewrite norm_idem.
Qed.
Lemma tight_tidy b b' : named b' -> node_lens b' -> tidy b' -> kept_tight 0 b b'.
Proof.
  intros Hn Hl Ht. split; [intros _; exact (proj2 (proj2 Ht))|]. intros n Hn0 _ id v Hid.
  apply (tidy_small b' Hn Hl Ht) in Hid. simpl in *. lia.
Qed.
Lemma tight_refl d b : 0 <= d -> kept_tight d b b.
Proof. intros Hd. split; [done|]. intros n _ H id v Hid. apply H in Hid. simpl in *. lia. Qed.
Lemma renamed_refl d (P : Z -> Prop) {HP : forall i, Decision (P i)} node b : 0 <= d -> named b ->
  (forall i, 0 <= i < 4096 -> P i -> node_name b i = Some node) -> renamed d P node b b.
Proof.
  intros Hd Hn H. split; [|split; [done|split; [by apply tight_refl|split; [done|split; [done|]]]]].
  - by destruct b.
  - intros i Hi. case_decide; [by rewrite H|done].
Qed.

(** Nodes of a block that is not visited are not selected. *)
Lemma not_visit a inv bp i : ~ visit a inv true bp -> 0 <= i < 4096 -> ~ selected a inv (abs_pos bp i).
Proof.
  intros Hv Hi Hs. apply Hv. exists (abs_pos bp i). split; [|done].
  apply in_cube_node. by apply idx_pos_cube.
Qed.
Lemma visit_selected a inv bp : visit a inv true bp ->
  exists i, 0 <= i < 4096 /\ selected a inv (abs_pos bp i).
Proof.
  intros (q & Hq & Hs). exists (pos_idx (minus q (block_corner bp))).
  assert (in_cube (minus q (block_corner bp))) as Hc.
  { unfold in_cube, minus, block_corner, node_in_block in *. simpl. lia. }
  split; [by apply pos_idx_range|]. unfold abs_pos. rewrite idx_pos_idx by done.
  replace (plus _ _) with q; [done|]. destruct q. unfold plus, minus, block_corner; simpl. f_equal; lia.
Qed.
