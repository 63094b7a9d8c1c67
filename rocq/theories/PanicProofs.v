(** Which blocks make the commands that edit blocks in place panic: nothing is said
    here about what they write. *)
From Verif Require Import SpecSafe QueryProofs RunProofs ThreadProofs EditProofs SysProofs MapProofs CodecProofs
  SpatialProofs CodecRound BlockProofs UtilsProofs BodyProofs NodeProofs MetaProofs ObjProofs InvProofs.
From Verif Require Import Spec.

(** ** Writing *)

Definition goes (w : writer) : Prop := forall buf, exists d, w buf = Ret d.
Lemma goes_all d : goes (wr_all d).
Proof. intros buf. by eexists. Qed.
Lemma goes_nop : goes wnop.
Proof. intros buf. by eexists. Qed.
Lemma goes_seq w1 w2 : goes w1 -> goes w2 -> goes (w1 >>> w2).
Proof. intros H1 H2 buf. unfold wseq. destruct (H1 buf) as [d ->]. cbn [bindO]. apply H2. Qed.
Lemma goes_list {A} (f : A -> writer) l : Forall (fun x => goes (f x)) l -> goes (wlist f l).
Proof.
  induction 1 as [|x l Hx _ IH]; intros buf; [by eexists|]. cbn [wlist]. by apply goes_seq.
Qed.
Lemma goes_string16 E k d : fits16 d -> goes (write_string16 E k d).
Proof.
  intros H buf. unfold write_string16. unfold fits16 in H. replace (_ <=? _) with false by lia.
  by eexists.
Qed.
Lemma goes_string32 E k d : fits32 d -> goes (write_string32 E k d).
Proof.
  intros H buf. unfold write_string32. unfold fits32 in H. replace (_ <=? _) with false by lia.
  by eexists.
Qed.

(** Enough for saving without panic *)
Record storable (b : block) : Prop := {
  st_version : 25 <= version b <= 29;
  st_nodes : Z.of_nat (length (nodes (ndata b))) = 4096;
  st_md : fit_metadata (metadata b);
  st_os : Forall (fun o => fits16 (odata o)) (objects b);
  st_nm : map_Forall (fun _ n => fits16 n) (nimap b) }.

Lemma goes_nimap E k m : map_Forall (fun _ n => fits16 n) m -> goes (wr_nimap E k m).
Proof.
  intros H. unfold wr_nimap. apply goes_seq; [apply goes_seq; apply goes_all|].
  apply goes_list. eapply Forall_impl; [by apply (sorted_list_Forall (fun _ n => fits16 n))|].
  intros [i n] Hn. apply goes_seq; [apply goes_all|by apply goes_string16].
Qed.
Lemma goes_nodes nd : Z.of_nat (length (nodes nd)) = 4096 -> goes (wr_node_data nd).
Proof. intros H buf. unfold wr_node_data. rewrite H, Z.eqb_refl. by eexists. Qed.
Lemma goes_meta E k v pos m : ext_ok E -> fit_meta m -> goes (wr_meta E k v pos m).
Proof.
  intros HE Hm. unfold wr_meta. apply goes_seq; [|apply goes_all]. apply goes_seq; [apply goes_all|].
  apply goes_list. eapply Forall_impl; [by apply vars_entries|]. intros e [H1 H2].
  apply goes_seq; [apply goes_seq; [by apply goes_string16|by apply goes_string32]|].
  destruct (2 <=? v); [apply goes_all|apply goes_nop].
Qed.
Lemma goes_metadata E k m bv : ext_ok E -> fit_metadata m -> goes (wr_metadata E k m bv).
Proof.
  intros HE Hm. unfold wr_metadata. cbv zeta. destruct (_ =? 0); [apply goes_all|].
  apply goes_seq; [apply goes_seq; apply goes_all|]. apply goes_list.
  eapply Forall_impl; [by apply fit_entries|]. intros [i e] He. apply goes_seq; [apply goes_all|].
  by apply goes_meta.
Qed.
Lemma goes_objects E k l : Forall (fun o => fits16 (odata o)) l -> goes (wr_objects E k l).
Proof.
  intros H. unfold wr_objects. apply goes_seq; [apply goes_seq; apply goes_all|]. apply goes_list.
  eapply Forall_impl; [exact H|]. intros o Ho. unfold wr_object.
  repeat (apply goes_seq; [|first [apply goes_all|by apply goes_string16]]). apply goes_all.
Qed.
Lemma goes_timers l : goes (wr_timers l).
Proof.
  unfold wr_timers. apply goes_seq; [apply goes_seq; apply goes_all|]. apply goes_list.
  apply Forall_true. intros t. unfold wr_timer. repeat (apply goes_seq; [|apply goes_all]). apply goes_all.
Qed.

Lemma serialize_storable E b : ext_ok E -> storable b -> exists d, serialize E b = Ret d.
Proof.
  intros HE [Hv Hn Hm Ho Hnm]. unfold serialize, MIN_BLOCK_VER, MAX_BLOCK_VER.
  replace (_ || _) with false by lia. destruct (29 <=? version b).
  - assert (goes (ser_29 E b)) as H.
    { unfold ser_29. repeat first [apply goes_all|apply goes_timers|by apply goes_objects|by apply goes_metadata|
        by apply goes_nodes|by apply goes_nimap|apply goes_seq]. }
    destruct (H []) as [d ->]. by eexists.
  - assert (goes (ser_28 E b)) as H; [|apply H].
    unfold ser_28. repeat first [apply goes_all|apply goes_timers|by apply goes_objects|by apply goes_nimap|
      apply goes_seq].
    + destruct (27 <=? version b); [apply goes_all|apply goes_nop].
    + intros buf. unfold wr_node_data_z. destruct (goes_nodes (ndata b) Hn []) as [d ->]. by eexists.
    + intros buf. unfold wr_metadata_z. destruct (goes_metadata E Zlib (metadata b) (version b) HE Hm []) as [d ->].
      by eexists.
Qed.

Lemma wf_storable b : wf_block b -> storable b.
Proof.
  intros Hb. destruct (wf_savable b Hb) as [H1 H2 H3 H4 H5]. split; [done|apply H2|done| |].
  - destruct H4 as [_ H4]. eapply Forall_impl; [exact H4|]. by intros o (_ & _ & _ & ?).
  - intros i n Hi. by apply H5 in Hi as [_ ?].
Qed.

(** The result of a body that neither panics nor skips the block as unreadable *)
Definition safe (o : out (edit * counts)) : Prop := exists e c, e <> EFail /\ o = Ret (e, c).
Lemma safe_skip c : safe (Ret (ESkip, c)).
Proof. by exists ESkip, c. Qed.
Lemma safe_write E b c : ext_ok E -> storable b -> safe (write_block E b c).
Proof.
  intros HE Hb. unfold write_block. destruct (serialize_storable E b HE Hb) as [d ->]. by exists (EWrite d), c.
Qed.

Lemma foldO_safe {A B} (f : A -> B -> out A) (P : A -> Prop) l a : P a ->
  (forall a x, x ∈ l -> P a -> exists a', f a x = Ret a' /\ P a') -> exists a', foldO f l a = Ret a' /\ P a'.
Proof.
  intros Ha Hf. apply (foldO_inv f (fun _ => P)); [done|]. intros d x r b -> Hb. apply Hf; [set_solver|done].
Qed.

(** ** Filtering by node *)

Lemma idx_selected_safe ns corner a inv (id : option Z) i :
  (is_Some id -> 0 <= i < Z.of_nat (length ns)) -> exists s, idx_selected ns corner a inv id i = Ret s.
Proof.
  intros H. unfold idx_selected. destruct (match a with Some _ => _ | None => _ end); [by eexists|].
  destruct id as [id|]; [|by eexists]. specialize (H ltac:(by eexists)).
  destruct (lookup_lt_is_Some_2 ns (Z.to_nat i)) as [x Hx]; [lia|]. rewrite (vget_Ret ns i x) by (done || lia). by eexists.
Qed.
Lemma idx_selected_any_safe ns corner a inv (ids : list Z) i :
  (ids <> [] -> 0 <= i < Z.of_nat (length ns)) -> exists s, idx_selected_any ns corner a inv ids i = Ret s.
Proof.
  intros H. unfold idx_selected_any. destruct (match a with Some _ => _ | None => _ end); [by eexists|].
  case_bool_decide as Hids; [by eexists|]. specialize (H Hids).
  destruct (lookup_lt_is_Some_2 ns (Z.to_nat i)) as [x Hx]; [lia|]. rewrite (vget_Ret ns i x) by (done || lia). by eexists.
Qed.
Lemma node_filter_some nm node id : node_filter nm node = Some id -> is_Some id -> is_Some node.
Proof. destruct node; [by eexists|]. simpl. intros [= <-]. by intros []. Qed.
Lemma nodes_filter_some nm names ids : nodes_filter nm names = Some ids -> ids <> [] -> names <> [].
Proof. unfold nodes_filter. destruct names; [|done]. simpl. by intros [= <-]. Qed.

(** ** The commands *)

Definition says_yes (o : out bool) : bool := match o with Ret s => s | Panic => false end.

Section Safe.
  Context (E : ext) (HE : ext_ok E) (k : Z) (bp : vec3) (Hk : block_at k bp) (x : bytes) (b : block)
    (Hd : deserialize E x = Ok b).

  Lemma is_wf : wf_block b.
  Proof. by eapply deserialize_wf. Qed.
  Lemma storable_nodes ns nm : length ns = length (nodes (ndata b)) -> map_Forall (fun _ n => fits16 n) nm ->
    storable (set_nimap (set_nodes b ns) nm).
  Proof.
    intros Hns Hnm. destruct (wf_storable b is_wf) as [H1 H2 H3 H4 H5]. split; try done. cbn. by rewrite Hns.
  Qed.
  Lemma names_fit : map_Forall (fun _ n => fits16 n) (nimap b).
  Proof. apply (wf_storable b is_wf). Qed.

  Lemma fit_metadata_del (l : list Z) : fit_metadata (foldl (fun m i => delete i m) (metadata b) l).
  Proof.
    pose proof (st_md b (wf_storable b is_wf)) as H. revert H. generalize (metadata b) as m.
    induction l as [|i l IH]; intros m Hm; [done|]. cbn [foldl]. apply IH. by apply map_Forall_delete.
  Qed.
  Lemma delmeta_safe node a inv_ : (is_Some node -> meta_in b) -> safe (delmeta_body E node a inv_ k x).
  Proof using HE Hd.
    intros Hin. unfold delmeta_body. rewrite Hd. destruct (node_filter (nimap b) node) as [id|] eqn:Enf; [|apply safe_skip].
    cbv zeta. match goal with |- context [foldO ?f ?l ?a] =>
      destruct (foldO_safe f (fun _ => True) l a) as (dl & -> & _); [done| |] end.
    { intros st i Hi _. destruct (idx_selected_safe (nodes (ndata b)) (vmuls (from_block_key k) 16) a inv_ id i) as [s ->].
      - intros Hs. rewrite (proj1 (wf_lens b is_wf)). eapply node_filter_some in Hs; [|done].
        apply elem_of_list_fmap in Hi as ([j m] & -> & Hj%elem_of_sorted_list). by eapply Hin.
      - by eexists. }
    cbn [bindO]. case_bool_decide; [apply safe_skip|]. apply safe_write; [done|].
    destruct (wf_storable b is_wf). split; try done. apply fit_metadata_del.
  Qed.
  Lemma deltimers_safe node a inv_ : (is_Some node -> timers_in b) -> safe (deltimers_body E node a inv_ k x).
  Proof using HE Hd.
    intros Hin. unfold deltimers_body. rewrite Hd. destruct (node_filter (nimap b) node) as [id|] eqn:Enf; [|apply safe_skip].
    cbv zeta. set (f := fun t => idx_selected (nodes (ndata b)) (vmuls (from_block_key k) 16) a inv_ id (tpos t)).
    assert (forall t, t ∈ timers b -> exists s, f t = Ret s) as Hf.
    { intros t Ht. apply idx_selected_safe. intros Hs. rewrite (proj1 (wf_lens b is_wf)).
      eapply node_filter_some in Hs; [|done]. specialize (Hin Hs). unfold timers_in in Hin.
      rewrite Forall_forall in Hin. by apply Hin. }
    pose proof (delete_rev_loop f (fun t => says_yes (f t) = true) (timers b)) as Hl. unfold f in Hl.
    rewrite Hl; clear Hl.
    2:{ intros t Ht. destruct (Hf t Ht) as [s Hs]. unfold f in Hs. rewrite Hs. f_equal. simpl. by destruct s. }
    cbn [bindO]. destruct (_ =? 0); [apply safe_skip|]. apply safe_write; [done|]. by destruct (wf_storable b is_wf).
  Qed.
  Lemma delobj_safe name items a inv_ : safe (delobj_body E name items a inv_ k x).
  Proof using HE Hd.
    unfold delobj_body. rewrite Hd.
    pose proof (delete_rev_loop (fun o => Ret (can_delete o a inv_ name items))
      (fun o => can_delete o a inv_ name items = true) (objects b)) as Hl.
    cbn [bindO] in Hl. rewrite Hl. 2:{ intros o _. f_equal. case_bool_decide as H1; [by rewrite H1|].
      by apply not_true_is_false. }
    cbn [bindO]. destruct (_ =? 0); [apply safe_skip|]. apply safe_write; [done|].
    destruct (wf_storable b is_wf) as [H1 H2 H3 H4 H5]. split; try done. cbn [objects set_objects].
    apply Forall_forall. intros o [_ Ho]%elem_of_list_filter. rewrite Forall_forall in H4. by apply H4.
  Qed.
  Lemma setvar_safe key value del names a inv_ : fits32 value -> (names <> [] -> meta_in b) ->
    safe (setvar_body E key value del names a inv_ k x).
  Proof using HE Hd.
    intros Hv Hin. unfold setvar_body. rewrite Hd.
    destruct (nodes_filter (nimap b) names) as [ids|] eqn:Enf; [|apply safe_skip]. cbv zeta.
    match goal with |- context [foldO ?f ?l ?a] =>
      destruct (foldO_safe f (fun st => fit_metadata st.1) l a) as ([md n] & -> & Hmd);
        [apply (wf_storable b is_wf)| |] end.
    { intros [md n] [i m] Hi%elem_of_sorted_list Hmd.
      destruct (idx_selected_any_safe (nodes (ndata b)) (vmuls (from_block_key k) 16) a inv_ ids i) as [s Hs].
      - intros Hne. rewrite (proj1 (wf_lens b is_wf)). eapply Hin; [by eapply nodes_filter_some|done].
      - cbn [fst snd] in *. rewrite Hs. cbn [bindO]. eexists. split; [done|]. destruct s; [|done].
        pose proof (st_md b (wf_storable b is_wf) i m Hi) as Hm. unfold set_var.
        destruct (vars m !! key) as [v|] eqn:Ev; [|done]. cbn [fst]. apply map_Forall_insert_2; [|done].
        unfold fit_meta. cbn [vars]. destruct del; [by apply map_Forall_delete|].
        apply map_Forall_insert_2; [|done]. split; [by apply (Hm key v)|done]. }
    cbn [bindO fst snd] in *. destruct (_ =? 0); [apply safe_skip|]. apply safe_write; [done|].
    by destruct (wf_storable b is_wf).
  Qed.
  Lemma replinv_safe item new dm names a inv_ : (names <> [] -> meta_in b) ->
    safe (replinv_body E item new dm names a inv_ k x).
  Proof using HE Hd.
    intros Hin. unfold replinv_body. rewrite Hd.
    destruct (nodes_filter (nimap b) names) as [ids|] eqn:Enf; [|apply safe_skip]. cbv zeta.
    match goal with |- context [foldO ?f ?l ?a] =>
      destruct (foldO_safe f (fun st => fit_metadata st.1) l a) as ([md [items n]] & -> & Hmd);
        [apply (wf_storable b is_wf)| |] end.
    { intros [md [items n]] [i m] Hi%elem_of_sorted_list Hmd.
      destruct (idx_selected_any_safe (nodes (ndata b)) (vmuls (from_block_key k) 16) a inv_ ids i) as [s Hs].
      - intros Hne. rewrite (proj1 (wf_lens b is_wf)). eapply Hin; [by eapply nodes_filter_some|done].
      - cbn [fst snd] in *. rewrite Hs. cbn [bindO]. eexists. split; [done|]. destruct s; [|done].
        pose proof (st_md b (wf_storable b is_wf) i m Hi) as Hm.
        destruct (do_replace_inv _ _ _ _) as [iv mods]. cbn [fst]. by apply map_Forall_insert_2. }
    cbn [bindO fst snd] in *. destruct (_ =? 0); [apply safe_skip|]. apply safe_write; [done|].
    by destruct (wf_storable b is_wf).
  Qed.

  Lemma param2_safe node val a inv_ : area_ok a -> visit a inv_ true bp -> safe (param2_body E node val a inv_ k x).
  Proof using HE Hk Hd.
    intros Ha Hv. destruct (block_at_key k bp Hk) as [Hr Hfk]. pose proof (wf_lens b is_wf) as (Hl1 & Hl2 & Hl3).
    unfold param2_body. rewrite Hd, Hfk. cbv zeta.
    destruct (node_filter (nimap b) node) as [id|]; [|apply safe_skip].
    assert (forall l, NoDup l -> (forall i, i ∈ l -> 0 <= i < 4096) ->
      exists p, param2_at (nodes (ndata b)) id val l (param2 (ndata b)) = Ret p) as Hat.
    { intros l Hnd Hin. destruct (param2_loop (nodes (ndata b)) (param2 (ndata b)) id val l Hnd) as (p & -> & _); [done..|].
      by eexists. }
    match goal with |- safe (let* _ := ?m in _) => assert (exists r, m = Ret r) as [[p n] ->] end.
    { pose proof (split_area a inv_ bp Hr Ha Hv) as Hp.
      destruct (match a with Some a => _ | None => None end) as [a'|].
      - destruct Hp as (part & -> & _ & l & Hl & Hnd & Hin & _). cbn [unwrap bindO]. unfold set_param2_partial.
        destruct (Hat l Hnd) as [[p n] Hpn]; [by intros i [? _]%Hin|].
        destruct inv_; [|injection Hl as ->; by eexists].
        rewrite Hl. cbn [bindO]. rewrite Hpn. by eexists.
      - destruct id as [id|]; [|by eexists]. apply Hat; [apply NoDup_seqZ|].
        intros i. rewrite elem_of_zrange. lia. }
    cbn [bindO]. apply safe_write; [done|]. by destruct (wf_storable b is_wf).
  Qed.

  Lemma remove_shift_names nm id : map_Forall (fun _ n => fits16 n) nm ->
    map_Forall (fun _ n => fits16 n) (remove_shift nm id).
  Proof.
    intros H. unfold remove_shift. cbv zeta. generalize (zrange (w16 (id + 1)) (default 0 (get_max_id (delete id nm)))).
    apply (map_Forall_delete _ _ id) in H. revert H. generalize (delete id nm) as m. intros m H l. revert m H.
    induction l as [|i l IH]; intros m Hm; [done|]. cbn [foldl]. apply IH. unfold shift_down.
    destruct (m !! i) as [n|] eqn:Ei; [|done]. apply map_Forall_insert_2; [by apply (Hm i)|by apply map_Forall_delete].
  Qed.
  Lemma replace_safe old new a inv_ : area_ok a -> visit a inv_ true bp -> fits16 new ->
    safe (replace_body E old new a inv_ k x).
  Proof using HE Hk Hd.
    intros Ha Hv Hnew. destruct (block_at_key k bp Hk) as [Hr Hfk]. pose proof (wf_lens b is_wf) as (Hl1 & _ & _).
    pose proof names_fit as Hnm.
    unfold replace_body. rewrite Hd. destruct (get_id (nimap b) old) as [old_id|] eqn:Eold; [|apply safe_skip].
    unfold do_replace. rewrite Hfk. cbv zeta. pose proof (split_area a inv_ bp Hr Ha Hv) as Hp.
    destruct (match a with Some a => _ | None => None end) as [a'|].
    - destruct Hp as (part & -> & Hbox & l & Hl & Hnd & Hin & _). cbn [unwrap bindO].
      assert (exists r, match get_id (nimap b) new with
        | Some id => Ret (id, false)
        | None => let* mx := unwrap (get_max_id (nimap b)) in Ret (w16 (mx + 1), true)
        end = Ret r) as [[new_id needed] ->].
      { destruct (get_id (nimap b) new); [by eexists|]. destruct (get_max_id (nimap b)) eqn:Em; [by eexists|].
        apply max_key_None in Em. apply get_id_Some in Eold as [He _]. by rewrite Em in He. }
      cbn [bindO].
      assert ((if inv_ then inv_indices part
        else let* ps := unwrap (area_positions part) in Ret (pos_index <$> ps)) = Ret l) as ->.
      { destruct inv_; [done|]. destruct (box_positions part Hbox) as (ps & -> & Hps). cbn [unwrap bindO].
        by rewrite Hps. }
      cbn [bindO].
      destruct (replace_loop (nodes (ndata b)) l old_id new_id Hnd) as (ns1 & -> & Hlen1 & _); [|lia|].
      { intros i Hi%Hin. rewrite Hl1. by destruct Hi. }
      cbn [bindO]. set (n := Z.of_nat _). clearbody n.
      assert (map_Forall (fun _ n => fits16 n) (if needed && (0 <? n) then <[new_id := new]> (nimap b) else nimap b)) as Hnm1.
      { destruct (_ && _); [|done]. by apply map_Forall_insert_2. }
      destruct (negb _); cbn [bindO]; (apply safe_write; [done|]; apply storable_nodes; [by rewrite ?fmap_length|]);
        [by apply remove_shift_names|done].
    - destruct (get_id (nimap b) new) as [new_id|]; cbn [bindO]; (apply safe_write; [done|]; apply storable_nodes;
        [by rewrite ?fmap_length|]); [by apply remove_shift_names|by apply map_Forall_insert_2].
  Qed.
End Safe.

(** Cleaning the name table when some node IDs may have no name *)
Lemma clean_safe b mx : get_max_id (nimap b) = Some mx -> mx <= 65534 -> wf_block b ->
  Forall (fun id => 0 <= id <= mx) (nodes (ndata b)) ->
  exists ns nm, clean_name_id_map b = Ret (set_nimap (set_nodes b ns) nm) /\
    length ns = length (nodes (ndata b)) /\ map_Forall (fun _ n => fits16 n) nm.
Proof.
  intros Emx Hmx Hb Hns. unfold clean_name_id_map. rewrite Emx. cbn [unwrap bindO].
  apply max_key_Some in Emx as [[v Hv] Hmax]. pose proof (proj2 (wf_nm b Hb) _ _ Hv) as [Hu _]. unfold u16_ok in Hu.
  rewrite w16_id by (unfold u16_ok; lia). set (n := Z.to_nat (mx + 1)). assert (Hn : Z.of_nat n = mx + 1) by lia. clearbody n.
  assert (Hkeys : map_Forall (fun id _ => 0 <= id < Z.of_nat n) (nimap b)).
  { intros id w Hid. specialize (Hmax id ltac:(by eexists)). pose proof (proj2 (wf_nm b Hb) _ _ Hid) as [Hu' _].
    unfold u16_ok in Hu'. lia. }
  destruct (mark_used (nodes (ndata b)) n) as (used & -> & Hlen & Hused).
  { eapply Forall_impl; [exact Hns|]. simpl. lia. }
  cbn [bindO].
  destruct (clean_loop used n (fun j => j ∈ nodes (ndata b)) _ Hlen Hused (sorted_list (nimap b)))
    as ([nm tbl] & -> & Hinv).
  - apply sorted_list_NoDup.
  - by apply sorted_list_Forall in Hkeys.
  - lia.
  - rewrite <-(fmap_length fst). apply NoDup_bounded; [apply sorted_list_NoDup|].
    apply Forall_fmap. apply sorted_list_Forall in Hkeys. done.
  - cbn [bindO]. destruct Hinv as (_ & _ & _ & Htl & _ & Hbwd). cbn [fst snd] in *.
    rewrite (mapO_Ret _ (fun id => default 0 (tbl !! Z.to_nat id))).
    2:{ intros id Hid. rewrite Forall_forall in Hns. specialize (Hns id Hid). simpl in Hns.
        destruct (lookup_lt_is_Some_2 tbl (Z.to_nat id)) as [j Hj]; [lia|].
        rewrite (vget_Ret tbl id j); [by rewrite Hj|lia|done]. }
    cbn [bindO]. eexists _, nm. split; [done|]. split; [by rewrite fmap_length|].
    intros i w Hw. destruct (Hbwd i w Hw) as (id & Hid%elem_of_sorted_list & _).
    by apply (proj2 (wf_nm b Hb)) in Hid as [_ ?].
Qed.

Lemma fill_safe E k bp x b a inv_ node : ext_ok E -> block_at k bp -> deserialize E x = Ok b ->
  area_ok (Some a) -> visit (Some a) inv_ true bp -> fits16 node ->
  ids_upto 65533 (nimap b) -> no_high_ids b -> safe (fill_body E a inv_ node k x).
Proof.
  intros HE Hk Hd [Hne Ha] Hv Hnode Hup Hcov. pose proof (is_wf E x b Hd) as Hb.
  pose proof (wf_storable b Hb) as Hst. pose proof (wf_lens b Hb) as (Hl1 & _).
  destruct (block_at_key k bp Hk) as [Hr Hfk]. unfold fill_body. rewrite Hfk, Hd. cbv zeta.
  pose proof (partly_spec a inv_ bp Hr Hne Ha Hv) as Hp. destruct (partly a bp).
  - destruct Hp as (part & -> & Hbox & Hin). cbn [unwrap bindO].
    assert (exists mx, get_max_id (nimap b) = Some mx) as [mx Emx].
    { destruct (get_max_id (nimap b)) as [mx|] eqn:Em; [by eexists|]. apply max_key_None in Em.
      destruct (lookup_4096 (nodes (ndata b)) 0 Hl1 ltac:(lia)) as [y Hy].
      destruct (Hcov y) as (id & _ & [n Hn]); [by eapply elem_of_list_lookup_2|]. by rewrite Em in Hn. }
    pose proof (proj1 (max_key_Some _ _) Emx) as [[v Hmx] Hmax].
    pose proof (Hup _ _ Hmx) as Hmr. cbn beta in Hmr.
    assert (forall y, y ∈ nodes (ndata b) -> 0 <= y <= mx) as Hns.
    { intros y Hy. destruct (Hcov y Hy) as (id & Hid & Hs). apply Hmax in Hs.
      destruct (wf_nd b Hb) as (_ & _ & _ & Hu). rewrite Forall_forall in Hu. apply Hu in Hy. unfold u16_ok in Hy. lia. }
    assert (exists id nm, match get_id (nimap b) node with
        | Some id => Ret (id, nimap b)
        | None => let* mx := unwrap (get_max_id (nimap b)) in
                  Ret (w16 (mx + 1), <[w16 (mx + 1) := node]> (nimap b))
        end = Ret (id, nm) /\ wf_nimap nm /\
        exists mx', get_max_id nm = Some mx' /\ mx <= mx' <= 65534 /\ 0 <= id <= mx') as (id & nm & -> & Hwf & mx' & Emx' & Hm1 & Hm2).
    { destruct (get_id (nimap b) node) as [id|] eqn:Eg.
      - exists id, (nimap b). split; [done|]. split; [apply (wf_nm b Hb)|]. exists mx. split; [done|]. split; [lia|].
        apply get_id_Some in Eg as [Hid _]. pose proof (Hup _ _ Hid) as Hi. cbn beta in Hi.
        specialize (Hmax id ltac:(by eexists)). lia.
      - rewrite Emx. cbn [unwrap bindO]. rewrite w16_id by (unfold u16_ok; lia). exists (mx + 1), (<[mx + 1 := node]> (nimap b)).
        split; [done|].
        assert (ids_upto 65534 (<[mx + 1 := node]> (nimap b))) as Hup'.
        { apply map_Forall_insert_2; [lia|]. intros i n Hi. apply Hup in Hi. cbn beta in Hi. lia. }
        split.
        + split.
          * pose proof (nimap_size_upto (<[mx + 1 := node]> (nimap b)) 65534 ltac:(lia) Hup'). lia.
          * apply map_Forall_insert_2; [split; [unfold u16_ok; lia|done]|apply (wf_nm b Hb)].
        + exists (mx + 1). split; [|lia]. apply max_key_Some. rewrite lookup_insert. split; [by eexists|].
          intros j Hj. destruct (decide (j = mx + 1)) as [->|Hn]; [lia|]. rewrite lookup_insert_ne in Hj by done.
          apply Hmax in Hj. lia. }
    cbn [bindO]. unfold fill_area.
    destruct (box_indices part inv_ bp a Hbox Hin) as (l & -> & Hnd & Hl). cbn [bindO].
    destruct (fill_loop (nodes (ndata b)) id l) as (ns & -> & Hlen & Hnsl).
    { intros i Hi%Hl. rewrite Hl1. by destruct Hi. }
    cbn [bindO].
    assert (Forall (fun y => 0 <= y <= mx') ns) as Hall.
    { apply Forall_forall. intros y [i Hy]%elem_of_list_lookup. specialize (Hnsl (Z.of_nat i) ltac:(lia)).
      rewrite Nat2Z.id in Hnsl. rewrite Hnsl in Hy. case_decide; [by inv Hy|].
      apply elem_of_list_lookup_2, Hns in Hy. lia. }
    assert (wf_block (set_nimap (set_nodes b ns) nm)) as Hwb.
    { change (set_nimap (set_nodes b ns) nm) with (with_nodes b (ND ns (param1 (ndata b)) (param2 (ndata b))) nm).
      destruct (wf_nd b Hb) as (H1 & H2 & H3 & _). apply wf_with_nodes; [done| |done].
      split; [cbn [nodes]; by rewrite Hlen|]. split; [done|]. split; [done|].
      eapply Forall_impl; [exact Hall|]. unfold u16_ok. simpl. lia. }
    destruct (clean_safe (set_nimap (set_nodes b ns) nm) mx') as (ns' & nm' & -> & Hlen' & Hnm'); [done|lia|done|done|].
    cbn [bindO]. apply safe_write; [done|]. cbn in Hlen'. destruct Hst as [H1 H2 H3 H4 H5]. split; try done.
    cbn. by rewrite Hlen', Hlen.
  - apply safe_write; [done|]. apply (storable_nodes E x b Hd); [by rewrite fmap_length|]. by apply map_Forall_singleton.
Qed.
