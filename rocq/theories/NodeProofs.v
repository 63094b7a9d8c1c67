(** Commands on nodes: fill, replacenodes, setparam2 *)
From Verif Require Import SpecPick SpatialProofs MapProofs CodecProofs CodecRound BlockProofs
  QueryProofs UtilsProofs RunProofs EditProofs BodyProofs Spec.

(** ** fill *)

Lemma insert_named_upto (m : nimap_t) mx k (n : bytes) : ids_upto mx m -> 0 <= mx <= k -> mx + 1 <= k ->
  ids_upto k (<[mx + 1 := n]> m).
Proof.
  intros Hm Hmx Hk. apply map_Forall_insert_2; [lia|]. intros id v Hid. apply Hm in Hid. simpl in *. lia.
Qed.

Lemma wf_insert (m : nimap_t) mx n : wf_nimap m -> ids_upto mx m -> 0 <= mx < 65534 -> fits16 n ->
  wf_nimap (<[mx + 1 := n]> m).
Proof.
  intros [_ Hm] Hmx Hr Hn. split.
  - pose proof (nimap_size_upto (<[mx + 1 := n]> m) (mx + 1) ltac:(lia)
      ltac:(apply insert_named_upto; [done|lia..])). lia.
  - apply map_Forall_insert_2; [|done]. split; [unfold u16_ok; lia|done].
Qed.

(** The ID for a node name, existing or new *)
Lemma id_for b node : wf_block b -> named b -> ids_upto 65533 (nimap b) -> fits16 node ->
  exists id nm,
    (match get_id (nimap b) node with
     | Some id => Ret (id, nimap b)
     | None => let* mx := unwrap (get_max_id (nimap b)) in
               Ret (w16 (mx + 1), <[w16 (mx + 1) := node]> (nimap b))
     end) = Ret (id, nm) /\ nm !! id = Some node /\ wf_nimap nm /\ ids_upto 65534 nm /\ u16_ok id /\
    forall i, is_Some (nimap b !! i) -> nm !! i = nimap b !! i.
Proof.
  intros Hb Hn Hu Hf. destruct (get_id (nimap b) node) as [id|] eqn:Eg.
  - apply get_id_Some in Eg as [Hid _]. exists id, (nimap b). split; [done|]. split; [done|].
    split; [apply Hb|]. split; [intros i v Hi; apply Hu in Hi; simpl in *; lia|].
    split; [|done]. apply Hu in Hid. unfold u16_ok. simpl in Hid. lia.
  - destruct (get_max_id_ex b _ Hu Hn (lens_nonempty _ (wf_lens b Hb))) as (mx & Emx & Hmx & Hup).
    rewrite Emx. cbn [unwrap bindO]. rewrite w16_id by (unfold u16_ok; lia).
    exists (mx + 1), (<[mx + 1 := node]> (nimap b)). split; [done|]. split; [by rewrite lookup_insert|].
    split; [apply wf_insert; [apply Hb|done|lia|done]|].
    split; [apply insert_named_upto; [done|lia..]|]. split; [unfold u16_ok; lia|].
    intros i [v Hi]. rewrite lookup_insert_ne; [done|]. apply Hup in Hi. simpl in Hi. lia.
Qed.

(** Setting the nodes at a list of indices to one ID *)
Lemma named_at b (l : list Z) id (nm : nimap_t) (ns : list Z) node : wf_block b -> named b -> nm !! id = Some node ->
  (forall i, is_Some (nimap b !! i) -> nm !! i = nimap b !! i) ->
  (forall j, 0 <= j -> ns !! Z.to_nat j = if decide (j ∈ l) then Some id else nodes (ndata b) !! Z.to_nat j) ->
  let b' := with_nodes b (ND ns (param1 (ndata b)) (param2 (ndata b))) nm in
  named b' /\ forall i, 0 <= i < 4096 ->
    node_name b' i = if decide (i ∈ l) then Some node else node_name b i.
Proof.
  intros Hb Hn Hid Hnm Hns b'. assert (forall i, 0 <= i < 4096 ->
    node_name b' i = if decide (i ∈ l) then Some node else node_name b i) as Hname.
  { intros i Hi. unfold b', node_name. cbn [ndata with_nodes nodes nimap]. rewrite Hns by lia.
    case_decide; simpl; [done|].
    destruct (nodes (ndata b) !! Z.to_nat i) as [x|] eqn:Ex; simpl; [|done].
    apply Hnm, Hn. by eapply elem_of_list_lookup_2. }
  split; [|done]. intros x Hx. apply elem_of_list_lookup in Hx as [j Hj].
  unfold b' in *. cbn [ndata with_nodes nodes nimap] in *.
  rewrite <-(Nat2Z.id j), Hns in Hj by lia. case_decide; [inv Hj; by eexists|].
  pose proof (elem_of_list_lookup_2 _ _ _ Hj) as Hx. rewrite Hnm; by apply Hn.
Qed.

Definition fill_count (a : option area) (inv : bool) (bp : vec3) : Z :=
  let n := count_if (fun i => selected a inv (abs_pos bp i)) in
  if inv && (0 <? n) && (n <? 4096) then 4096 - n else n.

Lemma fill_body_ok E a inv node k bp x b : ext_ok E -> full_writes E -> block_at k bp ->
  area_ok (Some a) -> visit (Some a) inv true bp -> deserialize E x = Ok b -> sound 65533 b -> fits16 node ->
  exists d b', fill_body E a inv node k x = Ret (EWrite d, (fill_count (Some a) inv bp, 0)) /\
    deserialize E d = Ok b' /\ norm b' = b' /\
    renamed 0 (fun i => selected (Some a) inv (abs_pos bp i)) node b b'.
Proof.
  intros HE Hf Hk [Hne Ha] Hv Hd Hs Hnode. pose proof (deserialize_wf E x b Hd) as Hb.
  destruct (block_at_key k bp Hk) as [Hr Hfk]. unfold fill_body. rewrite Hfk, Hd. cbv zeta.
  pose proof (partly_spec a inv bp Hr Hne Ha Hv) as Hp. destruct (partly a bp) eqn:Ep.
  - destruct Hp as (part & -> & Hbox & Hin). cbn [unwrap bindO].
    destruct (id_for b node Hb (sound_named _ _ Hs) (sound_ids _ _ Hs) Hnode)
      as (id & nm & -> & Hid & Hwf & Hup & Hu16 & Hsame). cbn [bindO]. unfold fill_area.
    destruct (box_indices part inv bp a Hbox Hin) as (l & -> & Hnd & Hl). cbn [bindO].
    destruct (fill_loop (nodes (ndata b)) id l) as (ns & -> & Hlen & Hns).
    { intros i Hi%Hl. destruct (wf_lens b Hb) as [-> _]. by destruct Hi. }
    cbn [bindO].
    change (set_nimap (set_nodes b ns) nm) with
      (with_nodes b (ND ns (param1 (ndata b)) (param2 (ndata b))) nm).
    destruct (named_at b l id nm ns node Hb (sound_named _ _ Hs) Hid Hsame Hns) as [Hn1 Hname1].
    set (b1 := with_nodes b _ nm) in *.
    assert (wf_block b1) as Hb1.
    { apply wf_with_nodes; [done| |done]. destruct (wf_nd b Hb) as (H1 & H2 & H3 & _).
      split; [cbn [nodes]; by rewrite Hlen|]. split; [done|]. split; [done|].
      apply Forall_forall. intros y Hy. destruct (Hn1 y Hy) as [v Hyv]. unfold b1 in Hyv. cbn in Hyv.
      apply Hwf in Hyv. by destruct Hyv. }
    destruct (clean_wf b1 Hb1 Hn1 Hup) as (ns' & nm' & -> & Hwf' & Hn' & Ht' & Hname'). cbn [bindO].
    destruct (write_ok E _ (volume part, 0) HE Hf Hwf') as (d & -> & Hd').
    eexists d, _. split; [|split; [exact Hd'|split; [by rewrite norm_idem|]]].
    + do 3 f_equal. unfold fill_count. set (n := count_if (fun i => selected _ _ _)).
      assert (volume part = count_if (fun i => inside a (abs_pos bp i))) as -> by (by apply volume_count).
      destruct inv; cbn [andb].
      * assert (n = 4096 - count_if (fun i => inside a (abs_pos bp i))) as Hn.
        { unfold n. simpl. rewrite <-count_if_not. apply count_if_ext. intros; done. }
        destruct (visit_selected _ _ _ Hv) as (i & Hi & Hsel).
        pose proof (count_if_pos (fun i => selected (Some a) true (abs_pos bp i)) i Hi Hsel) as Hpos.
        fold n in Hpos.
        assert (0 < count_if (fun i => inside a (abs_pos bp i))).
        { destruct Hbox as [Hnn Hc]. assert (inside part (amin part)) as Hm by (unfold inside, nonempty in *; lia).
          pose proof (box_ok_cube part _ (conj Hnn Hc) Hm) as Hcube.
          apply (count_if_pos _ (pos_idx (amin part))); [by apply pos_idx_range|].
          apply Hin; [by apply pos_idx_range|]. by rewrite idx_pos_idx. }
        replace (_ && _) with true by lia. lia.
      * done.
    + apply (renamed_norm 0 _ node b ns' nm'); [exact Hn'|apply tight_tidy; [exact Hn'|by apply wf_lens|exact Ht']|].
      intros i Hi.
      change (with_nodes b _ nm') with (with_nodes b1 (ND ns' (param1 (ndata b1)) (param2 (ndata b1))) nm').
      rewrite Hname', Hname1 by done. pose proof (Hl i) as Hli.
      repeat case_decide; try done; tauto.
  - set (ns := (fun _ : Z => 0) <$> nodes (ndata b)).
    change (set_nimap (set_nodes b ns) {[0 := node]}) with
      (with_nodes b (ND ns (param1 (ndata b)) (param2 (ndata b))) {[0 := node]}).
    assert (wf_block (with_nodes b (ND ns (param1 (ndata b)) (param2 (ndata b))) {[0 := node]})) as Hwf.
    { destruct (wf_nd b Hb) as (H1 & H2 & H3 & _). apply wf_with_nodes; [done| |].
      - split; [unfold ns; cbn [nodes]; by rewrite fmap_length|]. split; [done|]. split; [done|].
        apply Forall_forall. intros y (z & -> & _)%elem_of_list_fmap. unfold u16_ok. lia.
      - split; [by rewrite map_size_singleton|]. apply map_Forall_singleton. split; [|done]. unfold u16_ok. lia. }
    destruct (write_ok E _ (Z.of_nat (length ns), 0) HE Hf Hwf) as (d & -> & Hd').
    eexists d, _. split; [|split; [exact Hd'|split; [by rewrite norm_idem|]]].
    + do 3 f_equal. unfold fill_count. rewrite count_if_all by done.
      rewrite andb_false_r. unfold ns. rewrite fmap_length. apply (wf_lens b Hb).
    + apply renamed_norm.
      * intros y (z & -> & _)%elem_of_list_fmap. by eexists.
      * split.
        -- intros _ i j n. unfold with_nodes. cbn [nimap]. intros [<- _]%lookup_singleton_Some [<- _]%lookup_singleton_Some. done.
        -- intros n Hn _. apply map_Forall_singleton. lia.
      * intros i Hi. rewrite decide_True by auto. unfold node_name. cbn [ndata with_nodes nodes nimap].
        destruct (lookup_4096 (nodes (ndata b)) i) as [y Hy]; [apply (wf_lens b Hb)|done|].
        unfold ns. rewrite list_lookup_fmap, Hy. done.
Qed.

Lemma fill_run E W g main input pos a node : setting E W g main pos ->
  acmd g = CFill -> aarea g = Some a -> new_node g = Some node -> fits16 node ->
  blocks E main (sound 65533) ->
  edits E W g main input [] (MFilled (total E main pos (fun bp _ => fill_count (Some a) (invert g) bp)))
    (fun bp _ => unselected (Some a) (invert g) bp)
    (fun bp => renamed 0 (fun i => selected (Some a) (invert g) (abs_pos bp i)) node).
Proof.
  intros HS Hc Ha Hnn Hf Hb. destruct HS as [HE Hfull HW HO Hsup Hleg Hrdy Hkeys] eqn:EHS. clear EHS.
  pose proof (area_ok_args g Hsup Hleg) as Hok. rewrite Ha in Hok.
  assert (forall bp, 0 <= fill_count (Some a) (invert g) bp <= 4096) as Hbound.
  { intros bp. unfold fill_count. cbv zeta.
    pose proof (count_if_bound (fun i => selected (Some a) (invert g) (abs_pos bp i))). case_match; lia. }
  pose proof (total_bounds E W g main pos HS (fun bp _ => fill_count (Some a) (invert g) bp) 4096
    ltac:(lia) ltac:(intros; apply Hbound)) as Ht.
  pose proof (total_bounds E W g main pos HS (fun bp _ => 0) 0 ltac:(lia) ltac:(intros; lia)) as Ht0.
  apply (run_edit E W g main input pos HS false [] (fill_body E a (invert g) node)
    (fun bp _ => (fill_count (Some a) (invert g) bp, 0)) _ _ (fun c => MFilled c.1)).
  - unfold cmd_func. rewrite Hc. unfold fill. rewrite Ha, Hnn. done.
  - intros k bp x Hk Hm Hv _. rewrite Ha in Hv. destruct (deserialize E x) as [b|] eqn:Ed.
    + destruct (fill_body_ok E a (invert g) node k bp x b HE Hfull Hk Hok Hv Ed (Hb k x b Hm Ed) Hf)
        as (d & b' & Hbody & Hd & Hcan & HR).
      exists (EWrite d). split; [done|]. split; [done|]. split.
      * intros Hun. destruct (visit_selected _ _ _ Hv) as (i & Hi & Hsel). by destruct (Hun i Hi).
      * exists b'. split; [done|]. split; [by right|done].
    + unfold fill_body. by rewrite Ed.
  - intros k bp x b Hk Hm Ed Hn. rewrite Ha in Hn.
    assert (~ visit (Some a) (invert g) true bp) as Hv by (intros H; apply Hn; split; [done|by left]).
    pose proof (fun i => not_visit _ _ _ i Hv) as Hns. split; [|split].
    + f_equal. unfold fill_count. rewrite count_if_none by done. by rewrite andb_false_r.
    + intros i Hi. by apply Hns.
    + apply renamed_refl; [done|by apply (Hb k x b)|]. intros i Hi Hsel. by destruct (Hns i Hi).
  - simpl. lia.
  - simpl. lia.
Qed.

(** ** replacenodes *)

Lemma named_wf b ns nm : wf_block b -> length ns = length (nodes (ndata b)) -> wf_nimap nm ->
  let b' := with_nodes b (ND ns (param1 (ndata b)) (param2 (ndata b))) nm in named b' -> wf_block b'.
Proof.
  intros Hb Hl Hm b' Hn. apply wf_with_nodes; [done| |done].
  destruct (wf_nd b Hb) as (H1 & H2 & H3 & _). split; [cbn [nodes]; by rewrite Hl|]. split; [done|].
  split; [done|]. apply Forall_forall. intros id Hid. destruct (Hn id Hid) as [n Hin]. cbn in Hin.
  by apply Hm in Hin as [? _].
Qed.

(** Being picked is having the ID that is looked up. *)
Lemma lowest_id b name id : get_id (nimap b) name = Some id <-> lowest b name id.
Proof.
  rewrite get_id_Some. unfold lowest. split; intros [? Hl]; (split; [done|]).
  - intros id' n Hn ->. by apply Hl.
  - intros id' Hid. by apply (Hl id' name Hid).
Qed.
Lemma has_lowest_id b name id i : get_id (nimap b) name = Some id ->
  has_lowest b i name <-> nodes (ndata b) !! Z.to_nat i = Some id.
Proof.
  intros Hg. unfold has_lowest. destruct (nodes (ndata b) !! Z.to_nat i) as [x|]; [|done].
  rewrite <-lowest_id, Hg. naive_solver.
Qed.
Lemma picked_id a inv bp b name id i : get_id (nimap b) name = Some id ->
  picked a inv [name] bp b i <-> selected a inv (abs_pos bp i) /\ nodes (ndata b) !! Z.to_nat i = Some id.
Proof.
  intros Hid. unfold picked. rewrite Exists_cons, Exists_nil, has_lowest_id by done. naive_solver.
Qed.
(** Picked nodes have one of the names.  Without names registered twice, it is the same. *)
Lemma has_lowest_name b i name : has_lowest b i name -> node_name b i = Some name.
Proof.
  unfold has_lowest, node_name. destruct (nodes (ndata b) !! Z.to_nat i) as [x|]; [|done]. by intros [? _].
Qed.
Lemma picked_chosen a inv names bp b i : picked a inv names bp b i -> chosen a inv names bp b i.
Proof.
  intros [? [?|He]]; (split; [done|]); [by left|right]. eapply Exists_impl; [exact He|].
  intros n. apply has_lowest_name.
Qed.
Lemma picked_unique a inv names bp b i : unique_names b \/ names = [] ->
  picked a inv names bp b i <-> chosen a inv names bp b i.
Proof.
  intros Hu. split; [apply picked_chosen|]. intros [? Hn]. split; [done|]. destruct Hu as [Hu|?]; [|by left].
  destruct Hn as [?|He]; [by left|right]. eapply Exists_impl; [exact He|]. intros n Hnm.
  unfold has_lowest, node_name in *. destruct (nodes (ndata b) !! Z.to_nat i) as [x|]; [|done].
  split; [done|]. intros id' n' Hid' ->. by rewrite (Hu id' x n Hid' Hnm).
Qed.

Lemma replace_loop (ns idxs : list Z) old new : NoDup idxs ->
  (forall i, i ∈ idxs -> 0 <= i < Z.of_nat (length ns)) -> Z.of_nat (length ns) <= 4096 ->
  exists ns', replace_at old new idxs ns =
      Ret (ns', Z.of_nat (length (filter (fun i => ns !! Z.to_nat i = Some old) idxs))) /\
    length ns' = length ns /\
    forall j, 0 <= j -> ns' !! Z.to_nat j =
      if decide (j ∈ idxs /\ ns !! Z.to_nat j = Some old) then Some new else ns !! Z.to_nat j.
Proof.
  intros Hnd Hi Hlen. unfold replace_at.
  set (P := fun (d : list Z) (a : list Z * Z) =>
    a.2 = Z.of_nat (length (filter (fun i => ns !! Z.to_nat i = Some old) d)) /\
    length a.1 = length ns /\
    forall j, 0 <= j -> a.1 !! Z.to_nat j =
      if decide (j ∈ d /\ ns !! Z.to_nat j = Some old) then Some new else ns !! Z.to_nat j).
  edestruct (foldO_inv (fun (st : list Z * Z) i =>
    let* id := vget st.1 i in
    if id =? old then let* ns' := vset st.1 i new in Ret (ns', u64 (st.2 + 1)) else Ret st)
    P idxs (ns, 0)) as ([ns' n] & -> & Hn & Hl & Hns); unfold P; cbn [fst snd] in *.
  - split; [done|]. split; [done|]. intros j Hj. rewrite decide_False; [done|]. by intros [?%elem_of_nil _].
  - intros d x r [a n] Ed (Hn & Hl & Ha). cbn [fst snd] in *.
    destruct (Hi x) as [Hx0 Hx1]; [rewrite Ed; set_solver|].
    assert (x ∉ d) as Hxd.
    { rewrite Ed in Hnd. apply NoDup_app in Hnd as (_ & H & _). intros Hx. apply (H x Hx). left. }
    assert (a !! Z.to_nat x = ns !! Z.to_nat x) as Hax.
    { rewrite Ha by done. rewrite decide_False; [done|]. by intros [? _]. }
    destruct (ns !! Z.to_nat x) as [id|] eqn:Ex; [|apply lookup_ge_None in Ex; lia].
    rewrite (vget_Ret a x id) by done. cbn [bindO].
    assert (length d <= Z.to_nat 4096)%nat as Hd.
    { assert (length d <= length ns)%nat; [|lia]. apply NoDup_bounded.
      - rewrite Ed in Hnd. by apply NoDup_app in Hnd as (? & _).
      - apply Forall_forall. intros y Hy. apply Hi. rewrite Ed. set_solver. }
    pose proof (filter_length (fun i : Z => ns !! Z.to_nat i = Some old) d) as Hfl.
    rewrite filter_app, app_length. cbn [filter]. rewrite filter_cons, filter_nil, Ex.
    destruct (id =? old) eqn:Eid.
    + rewrite vset_Ret by lia. cbn [bindO]. eexists. split; [done|]. cbn [fst snd].
      assert (id = old) as -> by lia. rewrite decide_True by done. split.
      * rewrite u64_id by lia. cbn [length]. lia.
      * split; [by rewrite insert_length|]. intros j Hj. destruct (decide (j = x)) as [->|Hne].
        -- rewrite list_lookup_insert by lia. rewrite decide_True; [done|]. split; [set_solver|done].
        -- rewrite list_lookup_insert_ne by lia. rewrite Ha by done. apply (decide_ext). set_solver.
    + eexists. split; [done|]. cbn [fst snd]. rewrite decide_False by (intros [= ->]; lia).
      split; [simpl; lia|]. split; [done|]. intros j Hj. rewrite Ha by done. apply decide_ext.
      rewrite elem_of_app, elem_of_list_singleton. split; [tauto|]. intros [[?| ->] E]; [done|].
      rewrite Ex in E. inv E. lia.
  - exists ns'. by subst n.
Qed.

(** Indices of the positions of a box *)
Lemma box_positions part : box_ok part ->
  exists ps, area_positions part = Some ps /\ pos_index <$> ps = area_idx part.
Proof.
  intros Hp. pose proof (proj1 (box_ok_corners part) Hp) as (Hn & H1 & H2).
  exists (enum_area part). split.
  - apply area_positions_enum; [done|]. unfold area_within, within, nonempty in *. lia.
  - rewrite area_idx_enum. apply list_fmap_ext. intros i p Hi.
    apply elem_of_list_lookup_2, elem_of_enum_area in Hi. apply box_ok_cube in Hi; [|done].
    unfold in_cube in Hi. unfold pos_index, pos_idx. rewrite (w32_id (16 * vz p)) by (unfold i32_ok; lia).
    rewrite (w32_id (vy p + _)) by (unfold i32_ok; lia). rewrite (w32_id (16 * _)) by (unfold i32_ok; lia).
    rewrite w32_id by (unfold i32_ok; lia). lia.
Qed.

(** Removing an ID that no node has *)
Lemma wf_remove_shift nm id k : wf_nimap nm -> ids_upto k nm -> 0 <= id < 65535 -> 0 <= k <= 65534 ->
  wf_nimap (remove_shift nm id).
Proof.
  intros [_ Hm] Hk Hid Hk0.
  assert (forall i v, remove_shift nm id !! i = Some v -> 0 <= i <= k /\ fits16 v) as H.
  { intros i v. rewrite remove_shift_spec; [|by intros j w [? _]%Hm|done].
    case_decide; intros Hi; pose proof (Hm _ _ Hi) as [_ ?]; apply Hk in Hi; simpl in Hi; (split; [lia|done]). }
  split.
  - pose proof (nimap_size_upto (remove_shift nm id) k ltac:(lia)
      ltac:(intros i v Hi; by apply H in Hi as [? _])). lia.
  - intros i v Hi. apply H in Hi as [? ?]. split; [unfold u16_ok; lia|done].
Qed.

Lemma shift_lookup nm id x : wf_nimap nm -> 0 <= id < 65535 -> 0 <= x < 65536 -> x <> id ->
  remove_shift nm id !! shift_id id x = nm !! x.
Proof.
  intros [_ Hm] Hid Hx Hne. rewrite remove_shift_spec; [|by intros j w [? _]%Hm|done].
  unfold shift_id. destruct (id <? x) eqn:El.
  - rewrite w16_id by (unfold u16_ok; lia). rewrite decide_False by lia. f_equal. lia.
  - rewrite decide_True by lia. done.
Qed.

(** Names by ID after an edit of IDs ([f]) and names *)
Lemma renames_by (b : block) (P : Z -> Prop) {HP : forall i, Decision (P i)} new ns nm :
  length ns = length (nodes (ndata b)) -> node_lens b ->
  (forall i id, 0 <= i < 4096 -> nodes (ndata b) !! Z.to_nat i = Some id ->
     exists id' n, ns !! Z.to_nat i = Some id' /\ nm !! id' = Some n /\
       if decide (P i) then n = new else nimap b !! id = Some n) ->
  let b' := with_nodes b (ND ns (param1 (ndata b)) (param2 (ndata b))) nm in
  named b' /\ forall i, 0 <= i < 4096 -> node_name b' i = if decide (P i) then Some new else node_name b i.
Proof.
  intros Hl Hlens H b'. assert (forall i, 0 <= i < 4096 -> exists id, nodes (ndata b) !! Z.to_nat i = Some id) as Hex.
  { intros i Hi. apply lookup_4096; [apply Hlens|done]. }
  split.
  - intros id [j Hj]%elem_of_list_lookup. unfold b' in *. cbn [ndata with_nodes nodes nimap] in *.
    assert (0 <= Z.of_nat j < 4096) as Hr.
    { apply lookup_lt_Some in Hj. destruct Hlens as [? _]. lia. }
    destruct (Hex _ Hr) as [x Hx]. destruct (H _ _ Hr Hx) as (id' & n & Hid' & Hn & _).
    rewrite Nat2Z.id in Hid'. rewrite Hj in Hid'. inv Hid'. by eexists.
  - intros i Hi. destruct (Hex i Hi) as [x Hx]. destruct (H i x Hi Hx) as (id' & n & Hid' & Hn & HPi).
    unfold node_name, b'. cbn [ndata with_nodes nodes nimap]. rewrite Hid', Hx. simpl. rewrite Hn.
    case_decide; [by subst|done].
Qed.

Lemma count_id_length old ns : Z.of_nat (length ns) <= 4096 ->
  count_id old ns = Z.of_nat (length (filter (fun x => x = old) ns)).
Proof.
  intros Hl. unfold count_id.
  enough (forall l n, 0 <= n -> n + Z.of_nat (length l) <= 4096 ->
    foldl (fun n id => if id =? old then u64 (n + 1) else n) n l
    = n + Z.of_nat (length (filter (fun x => x = old) l))) as H by (rewrite H by lia; lia).
  clear. intros l. induction l as [|x l IH]; intros n Hn Hl; simpl; [lia|]. simpl in Hl.
  rewrite filter_cons. destruct (x =? old) eqn:Ex.
  - rewrite decide_True by lia. rewrite u64_id by lia. rewrite IH by lia. simpl. lia.
  - rewrite decide_False by lia. rewrite IH by lia. done.
Qed.
Lemma filter_ext_in {A} (P Q : A -> Prop) `{forall x, Decision (P x)} `{forall x, Decision (Q x)} (l : list A) :
  (forall x, x ∈ l -> P x <-> Q x) -> filter P l = filter Q l.
Proof.
  induction l as [|x l IH]; intros H1; [done|]. rewrite !filter_cons. pose proof (H1 x ltac:(set_solver)).
  rewrite IH by set_solver. repeat case_decide; tauto.
Qed.
Lemma filter_index (ns : list Z) old : length (filter (fun x => x = old) ns) =
  length (filter (fun i => ns !! Z.to_nat i = Some old) (seqZ 0 (Z.of_nat (length ns)))).
Proof.
  induction ns as [|x ns IH] using rev_ind; [done|].
  rewrite app_length, Nat2Z.inj_add. cbn [length]. rewrite seqZ_app by lia. rewrite !filter_app, !app_length.
  f_equal.
  - rewrite IH. f_equal. apply filter_ext_in. intros i Hi%elem_of_seqZ.
    rewrite lookup_app_l by lia. done.
  - rewrite Z.add_0_l. cbn [Z.of_nat]. rewrite (seqZ_cons _ (Z.of_nat 1)), seqZ_nil by lia.
    rewrite !filter_cons, !filter_nil. rewrite Nat2Z.id, lookup_app_r, Nat.sub_diag by lia. simpl.
    repeat case_decide; naive_solver.
Qed.

Lemma split_area a inv bp : key_range bp -> area_ok a -> visit a inv true bp ->
  match (match a with Some a => if partly a bp then Some a else None | None => None end) with
  | Some a' => exists part, rel_block_overlap a' bp = Some part /\ box_ok part /\
      exists l, (if inv then inv_indices part else Ret (area_idx part)) = Ret l /\ NoDup l /\
        (forall i, i ∈ l <-> 0 <= i < 4096 /\ selected a inv (abs_pos bp i)) /\
        Z.of_nat (length l) = if inv then 4096 - volume part else volume part
  | None => forall i, 0 <= i < 4096 -> selected a inv (abs_pos bp i)
  end.
Proof.
  intros Hr Ha Hv. destruct a as [a|]; [|done]. destruct Ha as [Hne Ha].
  pose proof (partly_spec a inv bp Hr Hne Ha Hv) as Hp. destruct (partly a bp); [|done].
  destruct Hp as (part & -> & Hb & Hin). exists part. split; [done|]. split; [done|].
  destruct (box_indices part inv bp a Hb Hin) as (l & Hl & Hnd & Hm). exists l. split; [done|].
  split; [done|]. split; [done|].
  rewrite (volume_count part (fun i => inside a (abs_pos bp i))) by done.
  transitivity (count_if (fun i => selected (Some a) inv (abs_pos bp i))).
  - unfold count_if. f_equal. apply Permutation_length, NoDup_Permutation; [done|apply NoDup_filter, NoDup_seqZ|].
    intros i. rewrite Hm, elem_of_list_filter, elem_of_seqZ. split; intros [? ?]; (split; [done || lia|lia || done]).
  - destruct inv; [|done]. rewrite <-count_if_not. by apply count_if_ext.
Qed.

Definition names_once (m : nimap_t) : Prop := forall i j n, m !! i = Some n -> m !! j = Some n -> i = j.
Lemma once_insert (m : nimap_t) id n : names_once m -> (forall k, m !! k <> Some n) -> names_once (<[id := n]> m).
Proof.
  intros Hm Hn i j v. rewrite !lookup_insert_Some. intros [[<- <-]|[Hi Hvi]] [[<- ?]|[Hj Hvj]]; try done.
  - by destruct (Hn j).
  - subst. by destruct (Hn i).
  - by eapply Hm.
Qed.
Lemma once_shift (m : nimap_t) id : map_Forall (fun k _ => u16_ok k) m -> 0 <= id < 65535 ->
  names_once m -> names_once (remove_shift m id).
Proof.
  intros Hu Hid Hm i j v. rewrite !remove_shift_spec by done. intros Hi Hj.
  repeat case_decide; pose proof (Hm _ _ _ Hi Hj); lia.
Qed.
Lemma upto_shift (m : nimap_t) id k : map_Forall (fun k _ => u16_ok k) m -> 0 <= id < 65535 ->
  ids_upto k m -> ids_upto k (remove_shift m id).
Proof.
  intros Hu Hid Hm i v. rewrite remove_shift_spec by done. case_decide; intros Hi; apply Hm in Hi; simpl in *; lia.
Qed.

Lemma do_replace_gen a inv bp k b old new old_id (P : Z -> Prop) {HP : forall i, Decision (P i)} :
  block_at k bp -> area_ok a -> visit a inv true bp ->
  wf_block b -> sound 65533 b -> fits16 new -> old <> new -> get_id (nimap b) old = Some old_id ->
  (forall i, P i <-> selected a inv (abs_pos bp i) /\ nodes (ndata b) !! Z.to_nat i = Some old_id) ->
  exists ns nm, do_replace (nimap b) (nodes (ndata b)) k old_id new a inv =
      Ret (ns, nm, count_if P) /\
    length ns = length (nodes (ndata b)) /\ wf_nimap nm /\
    kept_tight 1 b (with_nodes b (ND ns (param1 (ndata b)) (param2 (ndata b))) nm) /\
    named (with_nodes b (ND ns (param1 (ndata b)) (param2 (ndata b))) nm) /\
    forall i, 0 <= i < 4096 ->
      node_name (with_nodes b (ND ns (param1 (ndata b)) (param2 (ndata b))) nm) i =
        if decide (P i) then Some new else node_name b i.
Proof.
  intros Hk Ha Hv Hb Hs Hf Hne Hold Hch. destruct (block_at_key k bp Hk) as [Hr Hfk].
  pose proof (wf_lens b Hb) as Hlens. pose proof Hlens as (Hlen & _).
  pose proof (proj1 (get_id_Some _ _ _) Hold) as [Hoid _].
  pose proof (sound_ids _ _ Hs _ _ Hoid) as Ho. cbn beta in Ho.
  assert (forall i id, nodes (ndata b) !! Z.to_nat i = Some id -> exists n, nimap b !! id = Some n /\ 0 <= id <= 65533)
    as Hnamed.
  { intros i id Hi. destruct (sound_named _ _ Hs id) as [n Hn]; [by eapply elem_of_list_lookup_2|].
    exists n. split; [done|]. by apply (sound_ids _ _ Hs) in Hn. }
  unfold do_replace. rewrite Hfk. cbv zeta.
  pose proof (split_area a inv bp Hr Ha Hv) as Hp.
  destruct (match a with Some a => _ | None => None end) as [a'|].
  - (* part of the block *)
    destruct Hp as (part & -> & Hbox & l & Hl & Hnd & Hin & _). cbn [unwrap bindO].
    assert (exists new_id needed, match get_id (nimap b) new with
        | Some id => Ret (id, false)
        | None => let* mx := unwrap (get_max_id (nimap b)) in Ret (w16 (mx + 1), true)
        end = Ret (new_id, needed) /\ new_id <> old_id /\ 0 <= new_id <= 65534 /\
        (if needed : bool then nimap b !! new_id = None else nimap b !! new_id = Some new) /\
        (needed = true -> forall k, nimap b !! k <> Some new) /\
        forall n, ids_upto n (nimap b) -> new_id <= n + 1)
      as (new_id & needed & -> & Hnid & Hnr & Hneed & Hfresh & Hsmall).
    { destruct (get_id (nimap b) new) as [id|] eqn:Eg.
      - apply get_id_Some in Eg as [Hid _]. exists id, false. split; [done|].
        pose proof (sound_ids _ _ Hs _ _ Hid) as Hr'. cbn beta in Hr'. split; [congruence|]. split; [lia|].
        split; [done|]. split; [done|]. intros n Hn. apply Hn in Hid. simpl in Hid. lia.
      - pose proof (proj1 (get_id_None _ _) Eg) as Hfr.
        destruct (get_max_id_ex b _ (sound_ids _ _ Hs) (sound_named _ _ Hs) (lens_nonempty _ Hlens))
          as (mx & Emx & Hmx & Hup). rewrite Emx.
        exists (mx + 1), true. cbn [unwrap bindO]. rewrite w16_id by (unfold u16_ok; lia). split; [done|].
        apply Hup in Hoid. cbn beta in Hoid. split; [lia|]. split; [lia|].
        split; [destruct (nimap b !! (mx + 1)) eqn:E1; [|done]; apply Hup in E1; cbn beta in E1; lia|].
        split; [done|]. intros n Hn. apply max_key_Some in Emx as [[v Hmv] _]. apply Hn in Hmv. simpl in Hmv. lia. }
    cbn [bindO].
    assert ((if inv then inv_indices part
        else let* ps := unwrap (area_positions part) in Ret (pos_index <$> ps)) = Ret l) as ->.
    { destruct inv; [done|]. destruct (box_positions part Hbox) as (ps & -> & Hps). cbn [unwrap bindO].
      by rewrite Hps. }
    cbn [bindO].
    destruct (replace_loop (nodes (ndata b)) l old_id new_id Hnd) as (ns1 & -> & Hlen1 & Hns1); [|lia|].
    { intros i Hi%Hin. rewrite Hlen. by destruct Hi. }
    cbn [bindO].
    assert (Z.of_nat (length (filter (fun i => nodes (ndata b) !! Z.to_nat i = Some old_id) l)) =
      count_if P) as Hcnt.
    { rewrite (count_list l (fun i => selected a inv (abs_pos bp i))
        (fun i => nodes (ndata b) !! Z.to_nat i = Some old_id) (HQ := fun i => _)) by done.
      apply count_if_ext. intros i _. by rewrite Hch. }
    rewrite Hcnt. set (n := count_if P) in *.
    set (nm1 := if needed && (0 <? n) then _ else _).
    assert (forall i, 0 <= i < 4096 -> P i -> nm1 !! new_id = Some new) as Hnew.
    { intros i Hi Hc. pose proof (count_if_pos _ i Hi Hc) as Hpos. unfold nm1, n.
      replace (0 <? _) with true by lia. destruct needed; cbn [andb]; [by rewrite lookup_insert|done]. }
    assert (forall id v, nimap b !! id = Some v -> nm1 !! id = Some v) as Hkeep.
    { intros id v Hid. unfold nm1. destruct needed, (0 <? n); try done. cbn [andb].
      rewrite lookup_insert_ne; congruence. }
    assert (ids_upto 65534 nm1) as Hup1.
    { unfold nm1. destruct (needed && _).
      - apply map_Forall_insert_2; [lia|]. intros id v Hid. apply (sound_ids _ _ Hs) in Hid. cbn beta in Hid. lia.
      - intros id v Hid. apply (sound_ids _ _ Hs) in Hid. cbn beta in Hid. lia. }
    assert (wf_nimap nm1) as Hwf1.
    { split; [pose proof (nimap_size_upto nm1 65534 ltac:(lia) Hup1); lia|]. unfold nm1.
      destruct (needed && _); [|apply (wf_nm b Hb)]. apply map_Forall_insert_2; [|apply (wf_nm b Hb)].
      split; [unfold u16_ok; lia|done]. }
    assert (forall ns, kept_tight 1 b (with_nodes b ns nm1)) as Htight1.
    { intros ns0. unfold nm1. destruct (needed && _) eqn:Enn; [|split; [exact (proj1 (tight_refl 1 b ltac:(done)))|exact (proj2 (tight_refl 1 b ltac:(done)))]].
      apply andb_true_iff in Enn as [En _]. split; unfold unique_names, with_nodes; cbn [nimap].
      - intros Hu. by apply once_insert; [|apply Hfresh].
      - intros n0 Hn0 Hn1. apply map_Forall_insert_2; [pose proof (Hsmall n0 Hn1); lia|].
        intros id v Hid. apply Hn1 in Hid. simpl in *. lia. }
    assert (map_Forall (fun k _ => u16_ok k) nm1) as Hu1 by (by intros j w [? _]%(proj2 Hwf1)).
    assert (forall i id, 0 <= i < 4096 -> nodes (ndata b) !! Z.to_nat i = Some id ->
      exists id' v, ns1 !! Z.to_nat i = Some id' /\ nm1 !! id' = Some v /\ 0 <= id' < 65536 /\
        if decide (P i) then v = new else nimap b !! id = Some v) as Hby.
    { intros i id Hi Hid. rewrite Hns1 by lia. destruct (decide (P i)) as [Hc|Hc].
      - exists new_id, new. split; [rewrite decide_True; [done|]|].
        + apply Hch in Hc as [Hsel Hx]. split; [by apply Hin|done].
        + split; [by eapply Hnew|]. split; [lia|done].
      - destruct (Hnamed i id Hid) as (v & Hv1 & Hr1). exists id, v. split.
        + rewrite decide_False; [done|]. intros [Hi' Hx]. apply Hc, Hch. split; [|done]. by apply Hin.
        + split; [by apply Hkeep|]. split; [lia|done]. }
    destruct (bool_decide_reflect (old_id ∈ ns1)) as [Hin1|Hin1]; cbn [negb].
    + exists ns1, nm1. split; [done|]. split; [done|]. split; [done|]. split; [done|].
      apply renames_by; [done|done|]. intros i id Hi Hid.
      destruct (Hby i id Hi Hid) as (id' & v & ? & ? & _ & ?). by exists id', v.
    + exists (shift_id old_id <$> ns1), (remove_shift nm1 old_id).
      split; [done|]. split; [by rewrite fmap_length|].
      split; [apply (wf_remove_shift _ _ 65534); [done|done|lia|lia]|].
      split.
      { destruct (Htight1 (ndata b)) as [T1 T2]. split; unfold unique_names, with_nodes; cbn [nimap].
        - intros Hu. apply once_shift; [done|lia|by apply T1].
        - intros n0 Hn0 Hn1. apply upto_shift; [done|lia|by apply T2]. }
      apply renames_by; [by rewrite fmap_length|done|]. intros i id Hi Hid.
      destruct (Hby i id Hi Hid) as (id' & v & H1 & H2 & H3 & H4).
      exists (shift_id old_id id'), v. split; [by rewrite list_lookup_fmap, H1|].
      split; [|done]. rewrite shift_lookup; [done|done|lia|done|]. intros ->. apply Hin1.
      by eapply elem_of_list_lookup_2.
  - (* the whole block *)
    assert (count_id old_id (nodes (ndata b)) = count_if P) as ->.
    { rewrite count_id_length, filter_index by lia. rewrite Hlen. unfold count_if. do 2 f_equal.
      apply filter_ext_in. intros i Hi%elem_of_seqZ. rewrite Hch. split; [|by intros [_ ?]].
      intros ?. split; [apply Hp; lia|done]. }
    assert (forall i, 0 <= i < 4096 -> P i <-> nodes (ndata b) !! Z.to_nat i = Some old_id) as Hc.
    { intros i Hi. rewrite Hch. split; [by intros [_ ?]|]. intros ?. split; [by apply Hp|done]. }
    destruct (get_id (nimap b) new) as [new_id|] eqn:Eg.
    + apply get_id_Some in Eg as [Hnid _]. pose proof (sound_ids _ _ Hs _ _ Hnid) as Hnr. cbn beta in Hnr.
      assert (new_id <> old_id) as Hno by congruence.
      eexists _, (remove_shift (nimap b) old_id). split; [done|]. split; [by rewrite fmap_length|].
      split; [apply (wf_remove_shift _ _ 65533); [apply (wf_nm b Hb)|apply Hs|lia|lia]|].
      split.
      { assert (map_Forall (fun k _ => u16_ok k) (nimap b)) as Hu1
          by (by intros j w [? _]%(proj2 (wf_nm b Hb))).
        split; unfold unique_names, with_nodes; cbn [nimap].
        - intros Hu. apply once_shift; [done|lia|done].
        - intros n0 Hn0 Hn1. apply upto_shift; [done|lia|]. by apply (tight_refl 1 b). }
      apply renames_by; [by rewrite fmap_length|done|]. intros i id Hi Hid.
      rewrite list_lookup_fmap, Hid. cbn [fmap option_fmap option_map].
      destruct (Hnamed i id Hid) as (v & Hv1 & Hr1). destruct (id =? old_id) eqn:Eo.
      * assert (id = old_id) as -> by lia. eexists _, new. split; [done|]. split.
        -- rewrite shift_lookup; [done|apply (wf_nm b Hb)|lia|lia|done].
        -- rewrite decide_True; [done|]. by apply Hc.
      * eexists _, v. split; [done|]. split.
        -- rewrite shift_lookup; [done|apply (wf_nm b Hb)|lia|lia|lia].
        -- rewrite decide_False; [done|]. rewrite Hc by done. rewrite Hid. intros [= ->]. lia.
    + eexists _, (<[old_id := new]> (nimap b)). split; [done|]. split; [done|]. split.
      * split.
        -- pose proof (nimap_size_upto (<[old_id := new]> (nimap b)) 65533 ltac:(lia)
             ltac:(apply map_Forall_insert_2; [lia|apply Hs])). lia.
        -- apply map_Forall_insert_2; [|apply (wf_nm b Hb)]. split; [unfold u16_ok; lia|done].
      * split.
        { split; unfold unique_names, with_nodes; cbn [nimap].
          - intros Hu. apply once_insert; [done|]. by apply get_id_None.
          - intros n0 Hn0 Hn1. apply map_Forall_insert_2; [apply Hn1 in Hoid; simpl in Hoid; lia|].
            by apply (tight_refl 1 b). }
        apply renames_by; [done|done|]. intros i id Hi Hid.
        destruct (Hnamed i id Hid) as (v & Hv1 & Hr1). destruct (decide (id = old_id)) as [->|Hno].
        -- exists old_id, new. split; [done|]. split; [by rewrite lookup_insert|].
           rewrite decide_True; [done|]. by apply Hc.
        -- exists id, v. split; [done|]. split; [by rewrite lookup_insert_ne|].
           rewrite decide_False; [done|]. rewrite Hc by done. rewrite Hid. congruence.
Qed.

Lemma do_replace_ok a inv bp k b old new old_id : block_at k bp -> area_ok a -> visit a inv true bp ->
  wf_block b -> sound 65533 b -> fits16 new -> old <> new ->
  get_id (nimap b) old = Some old_id ->
  exists ns nm, do_replace (nimap b) (nodes (ndata b)) k old_id new a inv =
      Ret (ns, nm, count_if (picked a inv [old] bp b)) /\
    length ns = length (nodes (ndata b)) /\ wf_nimap nm /\
    kept_tight 1 b (with_nodes b (ND ns (param1 (ndata b)) (param2 (ndata b))) nm) /\
    named (with_nodes b (ND ns (param1 (ndata b)) (param2 (ndata b))) nm) /\
    forall i, 0 <= i < 4096 ->
      node_name (with_nodes b (ND ns (param1 (ndata b)) (param2 (ndata b))) nm) i =
        if decide (picked a inv [old] bp b i) then Some new else node_name b i.
Proof.
  intros Hk Ha Hv Hb Hs Hf Hne Hold.
  apply (do_replace_gen a inv bp k b old new old_id (picked a inv [old] bp b)); try done.
  intros i. by apply picked_id.
Qed.

Lemma get_id_lacks b name : get_id (nimap b) name = None -> lacks [name] b.
Proof.
  intros Hg. split; [done|]. intros n id ->%elem_of_list_singleton. by apply get_id_None.
Qed.
Lemma lacks_not_picked a inv names bp b i : lacks names b -> ~ picked a inv names bp b i.
Proof.
  intros [Hne Hl] [_ [?|Hex]]%picked_chosen; [done|]. apply Exists_exists in Hex as (n & Hn & Hnm).
  unfold node_name in Hnm. destruct (nodes (ndata b) !! Z.to_nat i) as [id|]; [|done].
  simpl in Hnm. by apply (Hl n id Hn).
Qed.
Lemma not_mentions_lacks E x b names : deserialize E x = Ok b -> ~ mentions names x -> lacks names b.
Proof.
  intros Hd Hm. split; [intros ->; apply Hm; by left|]. intros n id Hn Hid. apply Hm.
  by eapply mentions_nimap.
Qed.
(** A block that is not visited, or passed over, has no picked node. *)
Lemma passed_not_picked E x b a inv names bp i : deserialize E x = Ok b ->
  ~ (visit a inv true bp /\ mentions names x) -> 0 <= i < 4096 -> ~ picked a inv names bp b i.
Proof.
  intros Hd Hn Hi [Hsel Hnames]%picked_chosen. apply Hn. split.
  - exists (abs_pos bp i). split; [|done]. apply in_cube_node. by apply idx_pos_cube.
  - destruct Hnames as [->|Hex]; [by left|]. apply Exists_exists in Hex as (n & Hin & Hnm).
    unfold node_name in Hnm. destruct (nodes (ndata b) !! Z.to_nat i) as [id|]; [|done]. simpl in Hnm.
    by eapply mentions_nimap.
Qed.

(** In such a block no node is selected, or none has the name that is looked for. *)
Lemma passed_untouched E x b a inv names bp : deserialize E x = Ok b ->
  ~ (visit a inv true bp /\ mentions names x) -> unselected a inv bp \/ lacks names b.
Proof.
  intros Hd Hn. destruct (decide (count_if (fun i => selected a inv (abs_pos bp i)) = 0)) as [Hz|Hz].
  - left. intros i Hi Hs. by apply (count_if_zero _ Hz i Hi).
  - right. apply (not_mentions_lacks E x b); [done|]. intros Hm. apply Hz, count_if_none. intros i Hi Hs.
    apply Hn. split; [|done]. exists (abs_pos bp i). split; [|done]. apply in_cube_node. by apply idx_pos_cube.
Qed.

Lemma replace_body_ok E a inv old new k bp x b : ext_ok E -> full_writes E -> block_at k bp ->
  area_ok a -> visit a inv true bp -> deserialize E x = Ok b -> sound 65533 b ->
  fits16 new -> old <> new ->
  exists e b', e <> EFail /\
    replace_body E old new a inv k x = Ret (e, (count_if (picked a inv [old] bp b), 0)) /\
    (lacks [old] b -> e = ESkip) /\
    deserialize E (new_data e x) = Ok b' /\ (lacks [old] b \/ norm b' = b') /\
    renamed 1 (picked a inv [old] bp b) new b b'.
Proof.
  intros HE Hf Hk Ha Hv Hd Hs Hnew Hne. pose proof (deserialize_wf E x b Hd) as Hb.
  unfold replace_body. rewrite Hd. destruct (get_id (nimap b) old) as [old_id|] eqn:Eg.
  - destruct (do_replace_ok a inv bp k b old new old_id Hk Ha Hv Hb Hs Hnew Hne Eg)
      as (ns & nm & -> & Hl & Hm & Ht & Hn & Hname). cbn [bindO].
    change (set_nimap (set_nodes b ns) nm) with
      (with_nodes b (ND ns (param1 (ndata b)) (param2 (ndata b))) nm).
    destruct (write_ok E _ (count_if (picked a inv [old] bp b), 0) HE Hf (named_wf b ns nm Hb Hl Hm Hn))
      as (d & -> & Hd').
    eexists (EWrite d), _. split; [done|]. split; [done|]. split.
    + intros [_ Hlack]. apply get_id_Some in Eg as [Hid _]. destruct (Hlack old old_id); [set_solver|done].
    + split; [exact Hd'|]. split; [right; by rewrite norm_idem|]. by apply renamed_norm.
  - exists ESkip, b. split; [done|]. pose proof (get_id_lacks b old Eg) as Hlack.
    split; [do 3 f_equal; symmetry; apply count_if_none; intros; by apply lacks_not_picked|].
    split; [done|]. split; [done|]. split; [by left|]. apply renamed_refl; [done|apply Hs|].
    intros i _ Hc. by apply lacks_not_picked in Hc.
Qed.

Lemma count_total E W g main pos (P : vec3 -> block -> Z -> Prop) {HP : forall bp b i, Decision (P bp b i)} :
  setting E W g main pos ->
  0 <= total E main pos (fun bp b => count_if (P bp b)) <= 4096 * 68719476736.
Proof.
  intros HS. apply (total_bounds E W g main pos HS); [lia|]. intros. apply count_if_bound.
Qed.
Lemma zero_total E W g main pos : setting E W g main pos -> total E main pos (fun _ _ => 0) = 0.
Proof. intros. unfold total. induction (map_to_list main) as [|[? ?] l IH]; simpl; [done|]. case_match; lia. Qed.

Lemma replace_picks E W g main input pos old new : setting E W g main pos ->
  acmd g = CReplaceNodes -> anode g = Some old -> new_node g = Some new -> fits16 new ->
  blocks E main (sound 65533) ->
  edits E W g main input [old]
    (MReplaced (total E main pos (fun bp b => count_if (picked (aarea g) (invert g) [old] bp b))))
    (fun bp b => unselected (aarea g) (invert g) bp \/ lacks [old] b)
    (fun bp b => renamed 1 (picked (aarea g) (invert g) [old] bp b) new b).
Proof.
  intros HS Hc Ho Hnn Hf Hb. destruct HS as [HE Hfull HW HO Hsup Hleg Hrdy Hkeys] eqn:EHS. clear EHS.
  pose proof (area_ok_args g Hsup Hleg) as Hok.
  assert (old <> new) as Hne.
  { destruct Hleg as (_ & _ & _ & _ & Hl). rewrite Hc, Ho, Hnn in Hl. congruence. }
  pose proof (count_total E W g main pos (fun bp b => picked (aarea g) (invert g) [old] bp b) HS) as Ht.
  pose proof (zero_total E W g main pos HS) as Ht0.
  apply (run_edit E W g main input pos HS true [old] (replace_body E old new (aarea g) (invert g))
    (fun bp b => (count_if (picked (aarea g) (invert g) [old] bp b), 0)) _ _ (fun c => MReplaced c.1)).
  - unfold cmd_func. rewrite Hc. unfold replace_nodes. rewrite Ho, Hnn. done.
  - intros k bp x Hk Hm Hv _. destruct (deserialize E x) as [b|] eqn:Ed.
    + destruct (replace_body_ok E (aarea g) (invert g) old new k bp x b HE Hfull Hk Hok Hv Ed
        (Hb k x b Hm Ed) Hf Hne) as (e & b' & He & Hbody & Hlack & Hd & Hcan & HR).
      exists e. split; [done|]. split; [done|]. split.
      * intros [Hun|?]; [|auto]. destruct (visit_selected _ _ _ Hv) as (i & Hi & Hsel). by destruct (Hun i Hi).
      * exists b'. split; [done|]. split; [destruct Hcan; [left; by right|by right]|done].
    + unfold replace_body. by rewrite Ed.
  - intros k bp x b Hk Hm Ed Hn. pose proof (fun i => passed_not_picked E x b _ _ _ _ i Ed Hn) as Hns. split; [|split].
    + f_equal. by apply count_if_none.
    + by apply (passed_untouched E x b).
    + apply renamed_refl; [done|by apply (Hb k x b)|]. intros i Hi Hsel. by destruct (Hns i Hi).
  - simpl. lia.
  - simpl. lia.
Qed.

(** ** setparam2 *)

Definition id_ok (ns : list Z) (id : option Z) (i : Z) : Prop :=
  match id with Some id => ns !! Z.to_nat i = Some id | None => True end.
Global Instance id_ok_dec ns id i : Decision (id_ok ns id i).
Proof. unfold id_ok. destruct id; apply _. Defined.

Lemma param2_loop (ns : list Z) (p2 : bytes) id val (idxs : list Z) : NoDup idxs ->
  (forall i, i ∈ idxs -> 0 <= i < 4096) -> Z.of_nat (length ns) = 4096 -> Z.of_nat (length p2) = 4096 ->
  exists p, param2_at ns id val idxs p2 =
      Ret (p, Z.of_nat (length (filter (id_ok ns id) idxs))) /\
    length p = length p2 /\
    forall j, 0 <= j -> p !! Z.to_nat j =
      if decide (j ∈ idxs /\ id_ok ns id j) then Some val else p2 !! Z.to_nat j.
Proof.
  intros Hnd Hi Hlen Hp2. unfold param2_at.
  set (ok := id_ok ns id).
  set (P := fun (d : list Z) (a : bytes * Z) =>
    a.2 = Z.of_nat (length (filter ok d)) /\ length a.1 = length p2 /\
    forall j, 0 <= j -> a.1 !! Z.to_nat j = if decide (j ∈ d /\ ok j) then Some val else p2 !! Z.to_nat j).
  edestruct (foldO_inv (fun (st : bytes * Z) i =>
    let* o := match id with
               | None => Ret true
               | Some id => let* n := vget ns i in Ret (n =? id)
               end in
    if o : bool then let* p := vset st.1 i val in Ret (p, u64 (st.2 + 1)) else Ret st)
    P idxs (p2, 0)) as ([p n] & -> & Hn & Hl & Hp); unfold P; cbn [fst snd] in *.
  - split; [done|]. split; [done|]. intros j Hj. rewrite decide_False; [done|]. by intros [?%elem_of_nil _].
  - intros d x r [a n] Ed (Hn & Hl & Ha). cbn [fst snd] in *.
    assert (0 <= x < 4096) as Hx by (apply Hi; rewrite Ed; set_solver).
    assert (length d <= Z.to_nat 4096)%nat as Hd.
    { apply NoDup_bounded.
      - rewrite Ed in Hnd. by apply NoDup_app in Hnd as (? & _).
      - apply Forall_forall. intros y Hy. rewrite Z2Nat.id by lia. apply Hi. rewrite Ed. set_solver. }
    pose proof (filter_length ok d) as Hfl.
    rewrite filter_app, app_length, filter_cons, filter_nil.
    assert (match id with
               | None => Ret true
               | Some id => let* n := vget ns x in Ret (n =? id)
               end = Ret (bool_decide (ok x))) as ->.
    { unfold ok, id_ok. destruct id as [id|]; simpl.
      - destruct (lookup_4096 ns x Hlen Hx) as [y Hy]. rewrite (vget_Ret ns x y) by (done || lia). simpl.
        f_equal. rewrite Hy. case_bool_decide as Hb; [inv Hb; lia|].
        destruct (y =? id) eqn:Ey; [|done]. destruct Hb. f_equal. lia.
      - done. }
    cbn [bindO]. destruct (bool_decide_reflect (ok x)) as [Hok|Hok].
    + rewrite vset_Ret by lia. cbn [bindO]. eexists. split; [done|]. cbn [fst snd].
      rewrite decide_True by done. split.
      * rewrite u64_id by lia. cbn [length]. lia.
      * split; [by rewrite insert_length|]. intros j Hj. destruct (decide (j = x)) as [->|Hne].
        -- rewrite list_lookup_insert by lia. rewrite decide_True; [done|]. split; [set_solver|done].
        -- rewrite list_lookup_insert_ne by lia. rewrite Ha by done. apply (decide_ext). set_solver.
    + eexists. split; [done|]. cbn [fst snd]. rewrite decide_False by done.
      split; [simpl; lia|]. split; [done|]. intros j Hj. rewrite Ha by done. apply decide_ext.
      rewrite elem_of_app, elem_of_list_singleton. split; [tauto|]. intros [[?| ->] E]; [done|]. done.
  - exists p. by subst n.
Qed.

Lemma filter_spec a inv bp b node :
  match node_filter (nimap b) node with
  | None => lacks (to_slice node) b
  | Some id => forall i, picked a inv (to_slice node) bp b i <->
      selected a inv (abs_pos bp i) /\ id_ok (nodes (ndata b)) id i
  end.
Proof.
  unfold node_filter. destruct node as [n|].
  - destruct (get_id (nimap b) n) as [id|] eqn:Eg; [|by apply get_id_lacks].
    intros i. by apply picked_id.
  - intros i. unfold picked. simpl. split; [by intros [? _]|]. intros [? _]. split; [done|by left].
Qed.

Lemma param2_body_ok E a inv node val k bp x b : ext_ok E -> full_writes E -> block_at k bp ->
  area_ok a -> visit a inv true bp -> deserialize E x = Ok b ->
  exists e b', e <> EFail /\
    param2_body E node val a inv k x = Ret (e, (count_if (picked a inv (to_slice node) bp b), 0)) /\
    (lacks (to_slice node) b -> e = ESkip) /\
    deserialize E (new_data e x) = Ok b' /\ (lacks (to_slice node) b \/ norm b' = b') /\ repainted (picked a inv (to_slice node) bp b) val b b'.
Proof.
  intros HE Hf Hk Ha Hv Hd. pose proof (deserialize_wf E x b Hd) as Hb.
  destruct (block_at_key k bp Hk) as [Hr Hfk]. pose proof (wf_lens b Hb) as (Hl1 & Hl2 & Hl3).
  unfold param2_body. rewrite Hd, Hfk. cbv zeta.
  pose proof (filter_spec a inv bp b node) as Hfs.
  destruct (node_filter (nimap b) node) as [id|] eqn:Enf.
  - assert (exists p, match (match a with Some a => if partly a bp then Some a else None | None => None end) with
        | Some a =>
          let* part := unwrap (rel_block_overlap a bp) in
          set_param2_partial (nodes (ndata b)) (param2 (ndata b)) part inv id val
        | None =>
          match id with
          | Some _ => param2_at (nodes (ndata b)) id val (zrange 0 (Z.of_nat (length (param2 (ndata b))) - 1)) (param2 (ndata b))
          | None => Ret ((fun _ => val) <$> param2 (ndata b), Z.of_nat (length (param2 (ndata b))))
          end
        end = Ret (p, count_if (picked a inv (to_slice node) bp b)) /\ Z.of_nat (length p) = 4096 /\
        forall i, 0 <= i < 4096 -> p !! Z.to_nat i =
          if decide (picked a inv (to_slice node) bp b i) then Some val else param2 (ndata b) !! Z.to_nat i)
      as (p & -> & Hlp & Hp).
    { pose proof (split_area a inv bp Hr Ha Hv) as Hp.
      destruct (match a with Some a => _ | None => None end) as [a'|] eqn:Ea.
      - destruct Hp as (part & -> & Hbox & l & Hl & Hnd & Hin & Hvol). cbn [unwrap bindO]. unfold set_param2_partial.
        destruct (param2_loop (nodes (ndata b)) (param2 (ndata b)) id val l Hnd) as (p & Ep & Hlp & Hp);
          [by intros i [? _]%Hin|done..|].
        assert (Z.of_nat (length (filter (id_ok (nodes (ndata b)) id) l)) =
          count_if (picked a inv (to_slice node) bp b)) as Hcnt.
        { rewrite (count_list l (fun i => selected a inv (abs_pos bp i)) (id_ok (nodes (ndata b)) id)
            (HQ := fun i => _)) by done. apply count_if_ext. intros i _. by rewrite Hfs. }
        exists p. split; [|split; [lia|]].
        + assert (match id with Some _ => True | None => length (filter (id_ok (nodes (ndata b)) id) l) = length l end) as Hall.
          { destruct id; [done|]. f_equal. clear. induction l as [|y l IH]; [done|].
            rewrite filter_cons, decide_True by done. by rewrite IH. }
          destruct inv.
          * rewrite Hl. cbn [bindO]. rewrite Ep. cbn [bindO]. do 2 f_equal. destruct id as [id|]; [done|].
            rewrite <-Hcnt, Hall, Hvol. apply u64_id. rewrite <-Hvol. rewrite <-Hall, Hcnt.
            pose proof (count_if_bound (picked a true (to_slice node) bp b)). lia.
          * injection Hl as ->. rewrite Ep. by rewrite Hcnt.
        + intros i Hi. rewrite Hp by lia. apply decide_ext. rewrite Hin, Hfs. tauto.
      - destruct id as [id|].
        + set (l := zrange 0 _). assert (forall i, i ∈ l <-> 0 <= i < 4096) as Hin.
          { intros i. unfold l. rewrite elem_of_zrange. lia. }
          assert (NoDup l) as Hnd by apply NoDup_seqZ.
          destruct (param2_loop (nodes (ndata b)) (param2 (ndata b)) (Some id) val l Hnd) as (p & Ep & Hlp & Hp');
            [by intros i ?%Hin|done..|].
          exists p. split; [|split; [lia|]].
          * rewrite Ep. do 2 f_equal. rewrite (count_list l (fun i => selected a inv (abs_pos bp i))
              (id_ok (nodes (ndata b)) (Some id)) (HQ := fun i => _)); [|done|].
            -- apply count_if_ext. intros i _. by rewrite Hfs.
            -- intros i. rewrite Hin. split; [intros ?; split; [done|by apply Hp]|by intros [? _]].
          * intros i Hi. rewrite Hp' by lia. apply decide_ext. rewrite Hin, Hfs.
            pose proof (Hp i Hi). tauto.
        + assert (forall i, 0 <= i < 4096 -> picked a inv (to_slice node) bp b i) as Hall.
          { intros i Hi. apply Hfs. split; [by apply Hp|done]. }
          eexists. split; [|split].
          * do 2 f_equal. rewrite count_if_all by done. done.
          * by rewrite fmap_length.
          * intros i Hi. rewrite decide_True by auto. destruct (lookup_4096 (param2 (ndata b)) i Hl3 Hi) as [y Hy].
            by rewrite list_lookup_fmap, Hy. }
    cbn [bindO].
    change (set_param2s b p) with
      (with_nodes b (ND (nodes (ndata b)) (param1 (ndata b)) p) (nimap b)).
    set (b1 := with_nodes b _ _).
    assert (wf_block b1) as Hb1.
    { apply wf_with_nodes; [done| |apply (wf_nm b Hb)]. destruct (wf_nd b Hb) as (? & ? & ? & ?). by split. }
    destruct (write_ok E _ (count_if (picked a inv (to_slice node) bp b), 0) HE Hf Hb1) as (d & -> & Hd').
    eexists (EWrite d), _. split; [done|]. split; [done|]. split.
    + intros [Hne Hlack]. unfold node_filter in Enf. destruct node as [n|]; [|done].
      destruct (get_id (nimap b) n) as [id'|] eqn:Eg; [|done]. apply get_id_Some in Eg as [Hid _].
      destruct (Hlack n id'); [simpl; set_solver|done].
    + split; [exact Hd'|]. split; [right; by rewrite norm_idem|]. split; [by rewrite norm_idem|]. done.
  - exists ESkip, b. split; [done|].
    split; [do 3 f_equal; symmetry; apply count_if_none; intros; by apply lacks_not_picked|].
    split; [done|]. split; [done|]. split; [by left|]. split; [by destruct b|]. split; [done|]. split; [done|].
    intros i _. rewrite decide_False; [done|]. by apply lacks_not_picked.
Qed.

Lemma param2_picks E W g main input pos val : setting E W g main pos ->
  acmd g = CSetParam2 -> aparam2 g = Some val ->
  edits E W g main input (to_slice (anode g))
    (MParam2 (total E main pos (fun bp b => count_if (picked (aarea g) (invert g) (to_slice (anode g)) bp b))))
    (fun bp b => unselected (aarea g) (invert g) bp \/ lacks (to_slice (anode g)) b)
    (fun bp b => repainted (picked (aarea g) (invert g) (to_slice (anode g)) bp b) val b).
Proof.
  intros HS Hc Ho. destruct HS as [HE Hfull HW HO Hsup Hleg Hrdy Hkeys] eqn:EHS. clear EHS.
  pose proof (area_ok_args g Hsup Hleg) as Hok. set (names := to_slice (anode g)).
  pose proof (count_total E W g main pos (fun bp b => picked (aarea g) (invert g) names bp b) HS) as Ht.
  pose proof (zero_total E W g main pos HS) as Ht0.
  apply (run_edit E W g main input pos HS false names (param2_body E (anode g) val (aarea g) (invert g))
    (fun bp b => (count_if (picked (aarea g) (invert g) names bp b), 0)) _ _ (fun c => MParam2 c.1)).
  - unfold cmd_func. rewrite Hc. unfold set_param2. rewrite Ho. done.
  - intros k bp x Hk Hm Hv _. destruct (deserialize E x) as [b|] eqn:Ed.
    + destruct (param2_body_ok E (aarea g) (invert g) (anode g) val k bp x b HE Hfull Hk Hok Hv Ed) as (e & b' & He & Hbody & Hlack & Hd & Hcan & HR).
      exists e. split; [done|]. split; [done|]. split.
      * intros [Hun|?]; [|auto]. destruct (visit_selected _ _ _ Hv) as (i & Hi & Hsel). by destruct (Hun i Hi).
      * exists b'. split; [done|]. split; [destruct Hcan; [left; by right|by right]|done].
    + unfold param2_body. by rewrite Ed.
  - intros k bp x b Hk Hm Ed Hn. pose proof (fun i => passed_not_picked E x b _ _ _ _ i Ed Hn) as Hns. split; [|split].
    + f_equal. by apply count_if_none.
    + by apply (passed_untouched E x b).
    + split; [by destruct b|]. split; [done|]. split; [done|]. intros i Hi. rewrite decide_False; [done|].
      by apply Hns.
  - simpl. lia.
  - simpl. lia.
Qed.

(** ** Names that are registered once *)

Lemma edits_mono E W g main input names m m' (U U' : vec3 -> block -> Prop)
    (R R' : vec3 -> block -> block -> Prop) : m = m' ->
  (forall k bp x b, block_at k bp -> main !! k = Some x -> deserialize E x = Ok b ->
     (U bp b <-> U' bp b) /\ forall b', R bp b b' -> R' bp b b') ->
  edits E W g main input names m U R -> edits E W g main input names m' U' R'.
Proof.
  intros <- H (main' & failed & Hrun & Hsk & He1 & He2). exists main', failed. split; [exact Hrun|].
  split; [exact Hsk|]. split; [exact He1|]. intros k bp x Hk Hx. destruct (He2 k bp x Hk Hx) as (y & Hy & Hr).
  exists y. split; [done|]. destruct (deserialize E x) as [b|] eqn:Ed; [|done].
  destruct (H k bp x b Hk Hx Ed) as [HU HR]. rewrite <-HU. destruct Hr as (? & b' & ? & ? & ?). split; [done|].
  exists b'. rewrite <-HU. auto.
Qed.
Lemma total_eq E main pos f g : (forall k x b, main !! k = Some x -> deserialize E x = Ok b ->
  f (pos k) b = g (pos k) b) -> total E main pos f = total E main pos g.
Proof.
  intros H. apply zsum_ext. intros [k x] Hx%elem_of_map_to_list. cbn [fst snd].
  destruct (deserialize E x) eqn:Ed; [|done]. by apply (H k x).
Qed.
Lemma renamed_eq d (P Q : Z -> Prop) {HP : forall i, Decision (P i)} {HQ : forall i, Decision (Q i)} node b b' :
  (forall i, P i <-> Q i) -> renamed d P node b b' -> renamed d Q node b b'.
Proof.
  intros H (? & ? & ? & ? & ? & Hn). do 5 (split; [done|]). intros i Hi. rewrite Hn by done. by apply decide_ext.
Qed.
Lemma repainted_eq (P Q : Z -> Prop) {HP : forall i, Decision (P i)} {HQ : forall i, Decision (Q i)} val b b' :
  (forall i, P i <-> Q i) -> repainted P val b b' -> repainted Q val b b'.
Proof.
  intros H (? & ? & ? & Hn). do 3 (split; [done|]). intros i Hi. rewrite Hn by done. by apply decide_ext.
Qed.
Lemma once_or_all (x : option bytes) (B : Prop) : (is_Some x -> B) -> B \/ to_slice x = [].
Proof. intros H. destruct x; [left|by right]. apply H. by eexists. Qed.

Lemma replace_run E W g main input pos old new : setting E W g main pos ->
  acmd g = CReplaceNodes -> anode g = Some old -> new_node g = Some new -> fits16 new ->
  blocks E main (sound 65533) -> blocks E main unique_names ->
  edits E W g main input [old]
    (MReplaced (total E main pos (fun bp b => count_if (chosen (aarea g) (invert g) [old] bp b))))
    (fun bp b => unselected (aarea g) (invert g) bp \/ lacks [old] b)
    (fun bp b => renamed 1 (chosen (aarea g) (invert g) [old] bp b) new b).
Proof.
  intros HS Hc Ho Hnn Hf Hb Hub.
  eapply edits_mono; [| |exact (replace_picks E W g main input pos old new HS Hc Ho Hnn Hf Hb)].
  - f_equal. apply total_eq. intros k x b Hx Ed. apply count_if_ext. intros i _. apply picked_unique.
    left. by apply (Hub k x b).
  - intros k bp x b _ Hx Ed. split; [done|]. intros b'. apply renamed_eq. intros i. apply picked_unique.
    left. by apply (Hub k x b).
Qed.

Lemma param2_run E W g main input pos val : setting E W g main pos ->
  acmd g = CSetParam2 -> aparam2 g = Some val ->
  (is_Some (anode g) -> blocks E main unique_names) ->
  edits E W g main input (to_slice (anode g))
    (MParam2 (total E main pos (fun bp b => count_if (chosen (aarea g) (invert g) (to_slice (anode g)) bp b))))
    (fun bp b => unselected (aarea g) (invert g) bp \/ lacks (to_slice (anode g)) b)
    (fun bp b => repainted (chosen (aarea g) (invert g) (to_slice (anode g)) bp b) val b).
Proof.
  intros HS Hc Ho Hub.
  assert (forall k x b bp i, main !! k = Some x -> deserialize E x = Ok b ->
    picked (aarea g) (invert g) (to_slice (anode g)) bp b i <-> chosen (aarea g) (invert g) (to_slice (anode g)) bp b i) as Heq.
  { intros k x b bp i Hx Ed. apply picked_unique, once_or_all. intros Hn. by apply (Hub Hn k x b). }
  eapply edits_mono; [| |exact (param2_picks E W g main input pos val HS Hc Ho)].
  - f_equal. apply total_eq. intros k x b Hx Ed. apply count_if_ext. intros i _. by apply (Heq k x).
  - intros k bp x b _ Hx Ed. split; [done|]. intros b'. apply repainted_eq. intros i. by apply (Heq k x).
Qed.
