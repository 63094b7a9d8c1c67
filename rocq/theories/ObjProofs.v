(** The deleteobjects command *)
From Verif Require Import SpecCmd SpatialProofs MapProofs CodecProofs CodecRound BlockProofs FormatProofs
  QueryProofs UtilsProofs RunProofs EditProofs BodyProofs NodeProofs MetaProofs Spec.

Lemma read_string32_data s n r : read_string32 s = Ok (n, r) -> s = enc_str32 n ++ r.
Proof.
  intros H. unfold read_string32 in H. apply bindR_Ok in H as ([z t] & H1 & H).
  pose proof (yields_u32 _ _ _ H1) as Hz. unfold u32_ok in Hz.
  pose proof (yields_try z ltac:(lia) _ _ _ H) as Hl.
  rewrite try_read_n_eq in H by lia. unfold rd_n in H. case_decide; [|done]. inv H.
  destruct s as [|a [|b [|c [|d t']]]]; [done..|]. inv H1.
  unfold enc_str32. rewrite <-app_assoc. unfold be32. simpl. rewrite take_drop. rewrite Hl.
  pose proof (b2z_range a). pose proof (b2z_range b). pose proof (b2z_range c). pose proof (b2z_range d).
  f_equal; [|f_equal; [|f_equal; [|f_equal]]]; apply b2z_inj; rewrite b2z_z2b; lia.
Qed.

Lemma entity_iff o n d : lua_entity o = Ok (n, d) <-> entity o n d.
Proof.
  unfold lua_entity, entity. split.
  - intros H. destruct (b2z (obj_type o) =? 7) eqn:Et; [|done]. cbn [negb] in H.
    apply bindR_Ok in H as ([v s1] & H1 & H). destruct (b2z v =? 1) eqn:Ev; [|done]. cbn [negb] in H.
    apply bindR_Ok in H as ([n' s2] & H2 & H). apply bindR_Ok in H as ([d' s3] & H3 & H). inv H.
    split; [apply b2z_inj; rewrite b2z_z2b; lia|].
    pose proof (yields_str16 _ _ _ H2) as Hn. pose proof (yields_str32 _ _ _ H3) as Hd.
    split; [done|]. split; [done|]. exists s3.
    destruct (odata o) as [|v' t] eqn:Eo; [done|]. inv H1.
    assert (v = z2b 1) as -> by (apply b2z_inj; rewrite b2z_z2b; lia). cbn [app]. f_equal.
    apply read_string16_data in H2 as ->. apply read_string32_data in H3 as ->.
    by rewrite str16_enc, str32_enc.
  - intros (Ht & Hn & Hd & r & Ho). rewrite Ht, Ho. change (b2z (z2b 7)) with 7. cbn [Z.eqb Pos.eqb negb].
    rewrite decodes_byte. cbn [bindR]. change (b2z (z2b 1)) with 1. cbn [Z.eqb Pos.eqb negb].
    rewrite str16_enc, str32_enc. rewrite decodes_str16 by done. cbn [bindR].
    rewrite decodes_str32 by done. done.
Qed.
Lemma entity_fun o n d n' d' : entity o n d -> entity o n' d' -> n = n' /\ d = d'.
Proof. rewrite <-!entity_iff. intros -> [= -> ->]. done. Qed.

(** ** Item names *)

Lemma until_before r n : before_end r n <->
  n = until (fun c => bool_decide (c = x20) || bool_decide (c = x22)) r.
Proof.
  revert n. induction r as [|c r IH]; intros n; simpl.
  - split.
    + intros [_ [<-|(t & [H|H])]]; [done|by destruct n..].
    + intros ->. split; [done|by left].
  - destruct (bool_decide_reflect (c = x20)) as [->|H1]; [|destruct (bool_decide_reflect (c = x22)) as [->|H2]]; simpl.
    + split.
      * intros [Hf Hr]. destruct n as [|a n]; [done|]. inversion Hf as [|? ? [Ha _] _]; subst. exfalso.
        destruct Hr as [[= <- _]|(t & [[= <- _]|[= <- _]])]; done.
      * intros ->. split; [done|]. right. exists r. by left.
    + split.
      * intros [Hf Hr]. destruct n as [|a n]; [done|]. inversion Hf as [|? ? [_ Ha] _]; subst. exfalso.
        destruct Hr as [[= <- _]|(t & [[= <- _]|[= <- _]])]; done.
      * intros ->. split; [done|]. right. exists r. by right.
    + split.
      * intros [Hf Hr]. destruct n as [|a n].
        -- destruct Hr as [?|(t & [[= -> _]|[= -> _]])]; done.
        -- inversion Hf as [|? ? Ha Hf']; subst.
           destruct Hr as [[= <- E]|(t & [[= <- E]|[= <- E]])]; f_equal; apply IH; (split; [done|]);
             [by left|right; exists t; by left|right; exists t; by right].
      * intros ->. destruct (proj2 (IH _) eq_refl) as [Hf Hr]. split; [by constructor|].
        destruct Hr as [Hr|(t & [Hr|Hr])]; [left; by f_equal|right; exists t; left|right; exists t; right];
          simpl; f_equal; done.
Qed.

Lemma first_at_iff pat s l r : first_at pat s l r <->
  find_sub pat s = Some (length l) /\ s = l ++ pat ++ r.
Proof.
  unfold first_at. rewrite find_sub_Some. split.
  - intros [-> H]. split; [|done]. split; [|done]. eauto.
  - intros [[_ H] ->]. done.
Qed.
Lemma first_at_drop pat s i : find_sub pat s = Some i ->
  exists l, first_at pat s l (drop (i + length pat) s) /\ length l = i.
Proof.
  intros H. pose proof H as H'. apply find_sub_Some in H as ((l & r & -> & <-) & _). exists l. split; [|done].
  apply first_at_iff. split; [done|]. f_equal. f_equal. by rewrite <-app_length, app_assoc, drop_app.
Qed.

Lemma item_of_iff d n : item_of d n <-> n = get_item_name d.
Proof.
  unfold item_of, get_item_name.
  assert (bstr "return" `prefix_of` d <-> take 6 d = bstr "return") as Hp.
  { split.
    - intros [r ->]. done.
    - intros H. exists (drop 6 d). by rewrite <-H, take_drop. }
  case_decide as Hd; [rewrite bool_decide_true by tauto|rewrite bool_decide_false by tauto; done].
  unfold get_item_name_start. fold ITEM_NAME_PAT_NEW ITEM_NAME_PAT_OLD.
  assert (forall pat i l r, find_sub pat d = Some i -> first_at pat d l r -> r = drop (i + length pat) d) as Hfun.
  { intros pat i l r Hf [Hl ->]%first_at_iff. rewrite Hf in Hl. injection Hl as ->.
    by rewrite <-app_length, app_assoc, drop_app. }
  destruct (find_sub ITEM_NAME_PAT_NEW d) as [i|] eqn:En.
  - rewrite <-until_before. assert (occurs ITEM_NAME_PAT_NEW d) as Hoc by (apply find_sub_is_Some; by eexists).
    split.
    + intros [(l & r & Hf & Hb)|[[? _]|[? _]]]; [|done..]. by rewrite <-(Hfun _ i l r En Hf).
    + intros Hb. left. destruct (first_at_drop _ _ _ En) as (l & Hl & _). eauto.
  - assert (~ occurs ITEM_NAME_PAT_NEW d) as Hoc by (by apply find_sub_None).
    destruct (find_sub ITEM_NAME_PAT_OLD d) as [i|] eqn:Eo.
    + rewrite <-until_before. assert (occurs ITEM_NAME_PAT_OLD d) as Hoc' by (apply find_sub_is_Some; by eexists).
      split.
      * intros [(l & r & [-> _] & _)|[(_ & l & r & Hf & Hb)|(_ & ? & _)]]; [|by rewrite <-(Hfun _ i l r Eo Hf)|done].
        destruct Hoc. by exists l, r.
      * intros Hb. right; left. split; [done|]. destruct (first_at_drop _ _ _ Eo) as (l & Hl & _). eauto.
    + assert (~ occurs ITEM_NAME_PAT_OLD d) as Hoc' by (by apply find_sub_None). split.
      * intros [(l & r & [-> _] & _)|[(_ & l & r & [-> _] & _)|(_ & _ & ->)]]; [..|done].
        -- destruct Hoc. by exists l, r.
        -- destruct Hoc'. by exists l, r.
      * intros ->. by do 2 right.
Qed.

(** ** Positions *)

Lemma nearest_iff o p : nearest o p <-> p = vmap (fun v => (v + 5000) / 10000) (f_pos o).
Proof.
  unfold nearest, vmap. destruct p as [x y z], (f_pos o) as [a b c]; simpl. split.
  - intros ?. f_equal; lia.
  - intros [= -> -> ->]. lia.
Qed.

Lemma can_delete_iff o a inv name items : wf_object o -> (is_Some a -> in_reach o) ->
  can_delete o a inv name items = true <->
  (exists p, nearest o p /\ selected a inv p) /\
  match name with
  | None => True
  | Some n => exists d, entity o n d /\ (items = [] \/ exists i, i ∈ items /\ item_of d i)
  end.
Proof.
  intros Ho Hr. unfold can_delete.
  assert (match a with
     | Some a0 => Bool.eqb (contains a0 (vmap (fun v => w32 (v + 5000) / 10000) (f_pos o))) inv
     | None => false
     end = negb (bool_decide (selected a inv (vmap (fun v => (v + 5000) / 10000) (f_pos o))))) as ->.
  { rewrite <-area_test. destruct a as [a|]; [|done]. do 2 f_equal. unfold vmap.
    destruct (Hr ltac:(by eexists)) as (? & ? & ?). destruct Ho as (? & ? & ? & _). unfold i32_ok in *.
    rewrite !w32_id by (unfold i32_ok; lia). done. }
  assert ((exists p, nearest o p /\ selected a inv p) <->
    selected a inv (vmap (fun v => (v + 5000) / 10000) (f_pos o))) as ->.
  { split; [intros (p & ->%nearest_iff & H); done|]. intros H. eexists. split; [by apply nearest_iff|done]. }
  case_bool_decide as Hs; cbn [negb]; [|split; [done|tauto]].
  destruct name as [n|]; [|tauto].
  assert (forall n' d', lua_entity o = Ok (n', d') -> 
    ((exists d, entity o n d /\ (items = [] \/ exists i, i ∈ items /\ item_of d i)) <->
     n' = n /\ (items = [] \/ exists i, i ∈ items /\ item_of d' i))) as Hent.
  { intros n' d' He%entity_iff. split.
    - intros (d & He' & Hi). by destruct (entity_fun o n d n' d' He' He) as [-> ->].
    - intros [-> Hi]. eauto. }
  destruct (lua_entity o) as [[n' d']|] eqn:El.
  - rewrite (Hent n' d') by done. clear Hent.
    case_bool_decide as Hn; cbn [negb]; [|split; [done|tauto]].
    case_bool_decide as Hi; [split; [auto|done]|].
    rewrite existsb_exists. setoid_rewrite bool_decide_eq_true. setoid_rewrite item_of_iff.
    setoid_rewrite <-elem_of_list_In. split.
    + intros (i & Hin & ->). eauto 10.
    + intros (_ & _ & [?|(i & Hin & ->)]); [done|]. eauto.
  - split; [done|]. intros (_ & d & He%entity_iff & _). congruence.
Qed.

Lemma can_delete_entity o a inv n items : can_delete o a inv (Some n) items = true -> exists d, lua_entity o = Ok (n, d).
Proof.
  unfold can_delete. destruct (match a with Some _ => _ | None => _ end); [done|].
  destruct (lua_entity o) as [[n' d]|]; [|done]. case_bool_decide as Hn; cbn [negb]; [|done].
  intros _. subst. eauto.
Qed.

(** ** Runs *)

Definition visitb (a : option area) (inv : bool) (bp : vec3) : bool :=
  bool_decide (Exists (fun i => selected a inv (abs_pos bp i)) (seqZ 0 4096)).
Lemma visitb_iff a inv bp : visitb a inv bp = true <-> visit a inv true bp.
Proof.
  unfold visitb. rewrite bool_decide_eq_true, Exists_exists. split.
  - intros (i & Hi%elem_of_seqZ & Hs). exists (abs_pos bp i). split; [|done].
    apply in_cube_node, idx_pos_cube. lia.
  - intros (i & Hi & Hs)%visit_selected. exists i. split; [|done]. apply elem_of_seqZ. lia.
Qed.

Lemma wf_set_objects b (P : static_object -> Prop) `{forall t, Decision (P t)} : wf_block b ->
  wf_block (set_objects b (filter P (objects b))).
Proof.
  intros [? ? ? ? ? ? [Hs Ht] ? ? ?]. split; try done. cbn [objects set_objects]. split.
  - pose proof (filter_length P (objects b)). lia.
  - apply Forall_forall. intros t [_ Hin]%elem_of_list_filter. by eapply Forall_forall in Ht.
Qed.

Lemma count_objects_total E W g main pos (P : vec3 -> static_object -> bool)
    : setting E W g main pos ->
  0 <= total E main pos (fun bp b => count_of (fun o => P bp o = true) (objects b)) < 18446744073709551616.
Proof.
  intros HS. pose proof (total_bounds E W g main pos HS (fun bp b => count_of (fun o => P bp o = true) (objects b)) 65535
    ltac:(lia)) as Ht. feed specialize Ht; [|lia].
  intros k x b _ Hd. apply deserialize_wf in Hd. destruct (wf_os b Hd) as [Hs _].
  pose proof (count_of_bound (fun o => P (pos k) o = true) (objects b)). lia.
Qed.

Definition cdel (g : args) (bp : vec3) (o : static_object) : bool :=
  visitb (aarea g) (invert g) bp && can_delete o (aarea g) (invert g) (obj_name g) (item_names g).
Lemma cdel_iff g bp o : wf_object o -> (is_Some (aarea g) -> in_reach o) -> cdel g bp o = true <->
  object_chosen (aarea g) (invert g) (wanted_object g) (default [] (aitems g)) bp o.
Proof. intros Hwf Hr. unfold cdel. rewrite andb_true_iff, visitb_iff, can_delete_iff by done. done. Qed.

Lemma delobj_fn E W g main input pos : setting E W g main pos -> acmd g = CDeleteObjects ->
  let del := cdel g in
  edits E W g main input (o2l (wanted_object g))
    (MObjects (total E main pos (fun bp b => count_of (fun o => del bp o = true) (objects b))))
    (fun bp b => forall o, o ∈ objects b -> del bp o = false)
    (fun bp b b' => norm b' = with_objects (norm b) (filter (fun o => del bp o = false) (objects b))).
Proof.
  intros HS Hc del. destruct HS as [HE Hfull HW HO Hsup Hleg Hrdy Hkeys] eqn:EHS. clear EHS.
  set (cd := fun o => can_delete o (aarea g) (invert g) (obj_name g) (item_names g)).
  change del with (fun bp o => visitb (aarea g) (invert g) bp && cd o). clear del.
  pose proof (count_objects_total E W g main pos
    (fun bp o => visitb (aarea g) (invert g) bp && cd o) HS) as Ht.
  pose proof (zero_total E W g main pos HS) as Ht0.
  assert (o2l (wanted_object g) = to_slice (obj_name g)) as Hsl by done.
  apply (run_edit E W g main input pos HS false (o2l (wanted_object g))
    (delobj_body E (obj_name g) (item_names g) (aarea g) (invert g))
    (fun bp b => (count_of (fun o => visitb (aarea g) (invert g) bp && cd o = true) (objects b), 0)) _ _ (fun c => MObjects c.1)).
  - unfold cmd_func. rewrite Hc. done.
  - intros k bp x Hk Hm Hv _. unfold delobj_body. destruct (deserialize E x) as [b|] eqn:Ed; [|done].
    apply visitb_iff in Hv. rewrite Hv. cbn [andb].
    pose proof (deserialize_wf E x b Ed) as Hb.
    pose proof (delete_rev_loop (fun o => Ret (cd o)) (fun o => cd o = true) (objects b)) as Hloop.
    feed specialize Hloop.
    { intros o _. f_equal. by destruct (cd o). }
    cbn [bindO] in Hloop. set (n := count_of _ _) in *.
    rewrite (filter_ext_in _ (fun o => cd o = false)) in Hloop
      by (intros o _; by rewrite not_true_iff_false).
    match type of Hloop with _ = ?r => match goal with |- context [bindO ?f _] =>
      change f with (foldO (fun (st : list static_object * Z) i =>
        let* t := unwrap (st.1 !! i) in
        Ret (if cd t : bool then (list_delete i st.1, st.2 + 1) else st)) (rev_indices (objects b)) (objects b, 0)) end end.
    rewrite Hloop. clear Hloop. cbn [bindO].
    destruct (n =? 0) eqn:Ez.
    + apply Z.eqb_eq in Ez. exists ESkip. rewrite Ez. split; [done|]. split; [done|]. split; [done|]. exists b.
      assert (forall o, o ∈ objects b -> cd o = false) as Hz.
      { intros o Ho. apply not_true_iff_false. exact (proj1 (count_of_zero _ _) Ez o Ho). }
      split; [done|]. split; [by left|]. rewrite filter_all; [by destruct b|]. exact Hz.
    + destruct (write_ok E _ (n, 0) HE Hfull (wf_set_objects b (fun o => cd o = false) Hb)) as (d & -> & Hd').
      exists (EWrite d). split; [done|]. split; [done|]. split.
      * intros Hun. exfalso. enough (n = 0) by lia. apply count_of_zero. intros o Ho.
        by rewrite (Hun o Ho).
      * eexists. split; [exact Hd'|]. split; [right; by rewrite norm_idem|]. by rewrite norm_idem.
  - intros k bp x b Hk Hm Ed Hn. pose proof (deserialize_wf E x b Ed) as Hb.
    assert (forall o, o ∈ objects b -> visitb (aarea g) (invert g) bp && cd o = false) as Hns.
    { intros o Ho. apply not_true_iff_false. rewrite andb_true_iff, visitb_iff. intros [Hv Hcd]. apply Hn.
      split; [done|]. unfold cd in Hcd. rewrite Hsl. destruct (obj_name g) as [n|]; [|by left].
      apply can_delete_entity in Hcd as (d & He). eapply mentions_object; [done..|]. simpl. by left. }
    split; [|split].
    + f_equal. apply count_of_zero. intros o Ho. by rewrite Hns.
    + done.
    + rewrite filter_all; [by destruct b|]. done.
  - done.
  - simpl. lia.
Qed.

Lemma delobj_run E W g main input pos : setting E W g main pos -> acmd g = CDeleteObjects ->
  exists del : vec3 -> static_object -> bool,
  (forall bp o, wf_object o -> (is_Some (aarea g) -> in_reach o) -> del bp o = true <->
     object_chosen (aarea g) (invert g) (wanted_object g) (default [] (aitems g)) bp o) /\
  edits E W g main input (o2l (wanted_object g))
    (MObjects (total E main pos (fun bp b => count_of (fun o => del bp o = true) (objects b))))
    (fun bp b => forall o, o ∈ objects b -> del bp o = false)
    (fun bp b b' => norm b' = with_objects (norm b) (filter (fun o => del bp o = false) (objects b))).
Proof. intros HS Hc. exists (cdel g). split; [apply cdel_iff|]. by apply (delobj_fn E W g main input pos). Qed.
