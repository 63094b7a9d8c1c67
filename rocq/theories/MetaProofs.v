(** Commands on metadata and timers: deletemeta, deletetimers, setmetavar *)
From Verif Require Import SpecPick SpatialProofs MapProofs CodecProofs CodecRound BlockProofs
  QueryProofs UtilsProofs RunProofs EditProofs BodyProofs NodeProofs Spec.

(** ** Filters *)

Lemma abs_index bp i : key_range bp -> 0 <= i < 4096 ->
  vadd (from_u16_key i) (vmuls bp 16) = abs_pos bp i.
Proof.
  intros Hr Hi. rewrite from_u16_key_idx by done. rewrite block_corner_muls by (by apply key_range_within).
  pose proof (idx_pos_cube i Hi) as Hc. unfold in_cube, key_range in *.
  unfold abs_pos, vadd, plus, block_corner. simpl.
  rewrite !w32_id by (unfold i32_ok; lia). f_equal; lia.
Qed.

Lemma area_test a inv p :
  match a with Some a => Bool.eqb (contains a p) inv | None => false end = negb (bool_decide (selected a inv p)).
Proof.
  case_bool_decide as Hs; destruct a as [a|]; cbn [negb selected] in *; try tauto.
  - pose proof (contains_iff a p) as Hc. destruct inv, (contains a p); simpl; intuition congruence.
  - pose proof (contains_iff a p) as Hc. destruct inv, (contains a p); simpl; intuition congruence.
Qed.

Lemma idx_selected_ok bp b a inv node id i : wf_block b -> key_range bp -> 0 <= i < 4096 ->
  node_filter (nimap b) node = Some id ->
  idx_selected (nodes (ndata b)) (vmuls bp 16) a inv id i
  = Ret (bool_decide (picked a inv (to_slice node) bp b i)).
Proof.
  intros Hb Hr Hi Hf. pose proof (filter_spec a inv bp b node) as Hs. rewrite Hf in Hs.
  unfold idx_selected. rewrite abs_index, area_test by done.
  destruct (bool_decide_reflect (selected a inv (abs_pos bp i))) as [Hsel|Hsel]; cbn [negb].
  - destruct id as [id|].
    + destruct (lookup_4096 (nodes (ndata b)) i) as [y Hy]; [apply (wf_lens b Hb)|done|].
      rewrite (vget_Ret _ i y) by (done || lia). cbn [bindO]. f_equal.
      case_bool_decide as Hc; rewrite Hs in Hc; simpl in Hc.
      * destruct Hc as [_ Hc]. rewrite Hy in Hc. inv Hc. lia.
      * destruct (y =? id) eqn:E; [|done]. destruct Hc. split; [done|]. rewrite Hy. f_equal. lia.
    + rewrite bool_decide_true; [done|]. by apply Hs.
  - rewrite bool_decide_false; [done|]. by intros [? _]%Hs.
Qed.

Lemma any_filter_spec bp b a inv names :
  match nodes_filter (nimap b) names with
  | None => lacks names b
  | Some ids => forall i, picked a inv names bp b i <-> selected a inv (abs_pos bp i) /\
      (ids = [] \/ exists id, nodes (ndata b) !! Z.to_nat i = Some id /\ id ∈ ids)
  end.
Proof.
  unfold nodes_filter. destruct (decide (names = [])) as [->|Hne].
  { simpl. intros i. unfold picked. rewrite Exists_nil. naive_solver. }
  rewrite (bool_decide_false (names = [])) by done. cbn [negb andb].
  assert (forall id, id ∈ omap (get_id (nimap b)) names <-> exists n, n ∈ names /\ get_id (nimap b) n = Some id) as Hids.
  { intros id. rewrite elem_of_list_omap. done. }
  destruct (bool_decide_reflect (omap (get_id (nimap b)) names = [])) as [He|He].
  - split; [done|]. intros n id Hn Hid.
    destruct (get_id (nimap b) n) as [id'|] eqn:Eg; [|by apply get_id_None with (k := id) in Eg].
    assert (id' ∈ omap (get_id (nimap b)) names) as H by (apply Hids; eauto). rewrite He in H. set_solver.
  - intros i. unfold picked. rewrite Exists_exists.
    enough ((exists n, n ∈ names /\ has_lowest b i n) <->
      exists id, nodes (ndata b) !! Z.to_nat i = Some id /\ id ∈ omap (get_id (nimap b)) names) as H by naive_solver.
    split.
    + intros (n & Hn & Hlow). unfold has_lowest in Hlow.
      destruct (nodes (ndata b) !! Z.to_nat i) as [id|] eqn:Ei; [|done]. exists id.
      split; [done|]. apply Hids. exists n. split; [done|]. by apply lowest_id.
    + intros (id & Hid & (n & Hn & Hg)%Hids). exists n. split; [done|]. by apply has_lowest_id with (id := id).
Qed.

Lemma idx_selected_any_ok bp b a inv names ids i : wf_block b -> key_range bp -> 0 <= i < 4096 ->
  nodes_filter (nimap b) names = Some ids ->
  idx_selected_any (nodes (ndata b)) (vmuls bp 16) a inv ids i
  = Ret (bool_decide (picked a inv names bp b i)).
Proof.
  intros Hb Hr Hi Hf. pose proof (any_filter_spec bp b a inv names) as Hs. rewrite Hf in Hs.
  unfold idx_selected_any. rewrite abs_index, area_test by done.
  destruct (bool_decide_reflect (selected a inv (abs_pos bp i))) as [Hsel|Hsel]; cbn [negb].
  - destruct (bool_decide_reflect (ids = [])) as [He|He].
    + rewrite bool_decide_true; [done|]. apply Hs. auto.
    + destruct (lookup_4096 (nodes (ndata b)) i) as [y Hy]; [apply (wf_lens b Hb)|done|].
      rewrite (vget_Ret _ i y) by (done || lia). cbn [bindO]. f_equal. apply bool_decide_ext.
      rewrite Hs, Hy. naive_solver.
  - rewrite bool_decide_false; [done|]. by intros [? _]%Hs.
Qed.

(** A loop that collects the selected elements *)
Lemma collect_loop {A} (f : A -> out bool) (P : A -> Prop) `{forall x, Decision (P x)} l :
  (forall x, x ∈ l -> f x = Ret (bool_decide (P x))) ->
  foldO (fun acc x => let* s := f x in Ret (if s : bool then acc ++ [x] else acc)) l [] = Ret (filter P l).
Proof.
  intros Hf. enough (forall acc, foldO (fun acc x => let* s := f x in Ret (if s : bool then acc ++ [x] else acc)) l acc
    = Ret (acc ++ filter P l)) as -> by done.
  induction l as [|x l IH]; intros acc; simpl; [by rewrite app_nil_r|].
  rewrite Hf by set_solver. cbn [bindO]. rewrite IH by set_solver. rewrite filter_cons.
  case_bool_decide; case_decide; try done. by rewrite <-app_assoc.
Qed.

(** A loop that deletes the selected elements, last to first *)
Lemma rev_indices_snoc {A} (l : list A) x : rev_indices (l ++ [x]) = length l :: rev_indices l.
Proof.
  unfold rev_indices. rewrite app_length. cbn [length]. rewrite seq_app, reverse_app. done.
Qed.
Lemma delete_rev_loop {A} (f : A -> out bool) (P : A -> Prop) `{forall x, Decision (P x)} l :
  (forall x, x ∈ l -> f x = Ret (bool_decide (P x))) ->
  foldO (fun (st : list A * Z) i =>
      let* t := unwrap (st.1 !! i) in
      let* sel := f t in
      Ret (if sel : bool then (list_delete i st.1, st.2 + 1) else st)) (rev_indices l) (l, 0)
  = Ret (filter (fun x => ~ P x) l, count_of P l).
Proof.
  intros Hf.
  enough (forall rest n, foldO (fun (st : list A * Z) i =>
      let* t := unwrap (st.1 !! i) in
      let* sel := f t in
      Ret (if sel : bool then (list_delete i st.1, st.2 + 1) else st)) (rev_indices l) (l ++ rest, n)
    = Ret (filter (fun x => ~ P x) l ++ rest, n + count_of P l)) as H1.
  { specialize (H1 [] 0). rewrite !app_nil_r in H1. exact H1. }
  induction l as [|x l IH] using rev_ind; intros rest n.
  { simpl. f_equal. f_equal. unfold count_of. simpl. lia. }
  rewrite rev_indices_snoc. cbn [foldO]. cbn [fst snd].
  rewrite <-app_assoc. cbn [app].
  rewrite (list_lookup_middle l rest x (length l)) by done. cbn [unwrap bindO].
  rewrite Hf by set_solver. cbn [bindO].
  assert (count_of P (l ++ [x]) = count_of P l + if decide (P x) then 1 else 0) as ->.
  { unfold count_of. rewrite filter_app, app_length, filter_cons, filter_nil. case_decide; simpl; lia. }
  rewrite filter_app, filter_cons, filter_nil.
  destruct (bool_decide_reflect (P x)) as [Hp|Hp].
  - change (list_delete (length l) (l ++ x :: rest)) with (delete (length l) (l ++ x :: rest)).
    rewrite delete_middle. rewrite IH by set_solver. rewrite (decide_False (P := ~ P x)) by tauto.
    rewrite decide_True by done. rewrite app_nil_r. do 2 f_equal. lia.
  - rewrite IH by set_solver. rewrite decide_True, decide_False by done. rewrite <-app_assoc.
    do 2 f_equal. lia.
Qed.

(** ** Saving changed metadata *)

Definition strip (v : Z) (m : node_meta) : node_meta := if 28 <=? v then m else strip_private m.
Lemma blank_strip v m : blank (strip v m) <-> blank m.
Proof.
  unfold strip. destruct (28 <=? v); [done|]. unfold blank. simpl. by rewrite fmap_empty_iff.
Qed.
Lemma norm_metadata_lookup v (m : metadata_t) i :
  norm_metadata v m !! i = m !! i ≫= fun e => if decide (blank e) then None else Some (strip v e).
Proof.
  unfold norm_metadata, strip. destruct (28 <=? v).
  - unfold id. rewrite map_filter_lookup. destruct (m !! i) as [e|]; simpl; [|done].
    repeat case_decide; try done. 
    + by rewrite option_guard_False by tauto.
    + by rewrite option_guard_True.
  - rewrite lookup_fmap, map_filter_lookup. destruct (m !! i) as [e|]; simpl; [|done].
    repeat case_decide; try done. 
    + by rewrite option_guard_False by tauto.
    + by rewrite option_guard_True.
Qed.

Lemma metadata_changed_norm (upd : Z -> node_meta -> option node_meta) b (md : metadata_t) :
  (forall i, md !! i = metadata b !! i ≫= upd i) ->
  (forall i m, upd i (strip (version b) m) = strip (version b) <$> upd i m) ->
  (forall i m, metadata b !! i = Some m -> blank m -> forall m', upd i m = Some m' -> blank m') ->
  metadata_changed upd b (norm (set_metadata b md)).
Proof.
  intros Hmd Hs Hbl. exists (norm_metadata (version b) md). split; [by rewrite norm_idem|].
  intros i. cbn [metadata norm]. rewrite !norm_metadata_lookup, Hmd.
  destruct (metadata b !! i) as [m|] eqn:Ei; simpl; [|done]. case_decide as Hb.
  - simpl. destruct (upd i m) as [m'|] eqn:Eu; [|done]. simpl.
    rewrite decide_True; [done|]. by eapply Hbl.
  - simpl. rewrite Hs. destruct (upd i m) as [m'|]; simpl; [|done].
    pose proof (blank_strip (version b) m'). repeat case_decide; tauto.
Qed.
Lemma metadata_changed_refl (upd : Z -> node_meta -> option node_meta) E x b : deserialize E x = Ok b ->
  (forall i m, metadata b !! i = Some m -> upd i (strip (version b) m) = Some (strip (version b) m)) ->
  metadata_changed upd b b.
Proof.
  intros _ Hu. exists (metadata (norm b)). split; [done|]. intros i. cbn [metadata norm].
  rewrite norm_metadata_lookup. destruct (metadata b !! i) as [m|] eqn:Ei; simpl; [|done].
  case_decide as Hb; [done|]. simpl. rewrite Hu by done. simpl. rewrite decide_False; [done|].
  by rewrite blank_strip.
Qed.

Lemma wf_set_metadata b md : wf_block b -> wf_metadata md -> wf_block (set_metadata b md).
Proof. intros [] ?. by split. Qed.

(** Entries are changed, none added *)
Lemma wf_metadata_upd (m md : metadata_t) (upd : Z -> node_meta -> option node_meta) : wf_metadata m ->
  (forall i, md !! i = m !! i ≫= upd i) ->
  (forall i e e', m !! i = Some e -> upd i e = Some e' -> wf_meta e') -> wf_metadata md.
Proof.
  intros [Hs Hm] Hmd Hu. split.
  - enough (size md <= size m)%nat by lia. rewrite <-!(size_dom (D := gset Z)). apply subseteq_size.
    intros i. rewrite !elem_of_dom, Hmd. destruct (m !! i); [by eexists|by intros [? ?]].
  - intros i e He. rewrite Hmd in He. destruct (m !! i) as [e0|] eqn:E0; [|done]. simpl in He.
    split; [by apply Hm in E0 as [? _]|]. by eapply Hu.
Qed.

(** Counting entries of a map *)
Lemma count_of_perm {A} (P : A -> Prop) `{forall x, Decision (P x)} l l' : l ≡ₚ l' -> count_of P l = count_of P l'.
Proof. intros Hp. unfold count_of. f_equal. apply Permutation_length. by rewrite Hp. Qed.
Lemma count_of_zero {A} (P : A -> Prop) `{forall x, Decision (P x)} l : count_of P l = 0 <-> forall x, x ∈ l -> ~ P x.
Proof.
  unfold count_of. split.
  - intros Hl x Hx Hp. assert (x ∈ filter P l) as Hin by (by apply elem_of_list_filter).
    destruct (filter P l); [by apply elem_of_nil in Hin|done].
  - intros Hn. destruct (filter P l) as [|x r] eqn:E; [done|].
    assert (x ∈ filter P l) as Hx by (rewrite E; left). apply elem_of_list_filter in Hx as [Hp Hx].
    by destruct (Hn x).
Qed.
Lemma count_of_bound {A} (P : A -> Prop) `{forall x, Decision (P x)} l : 0 <= count_of P l <= Z.of_nat (length l).
Proof. unfold count_of. pose proof (filter_length P l). lia. Qed.
Lemma count_of_ext {A} (P Q : A -> Prop) `{forall x, Decision (P x)} `{forall x, Decision (Q x)} l :
  (forall x, x ∈ l -> P x <-> Q x) -> count_of P l = count_of Q l.
Proof. intros H1. unfold count_of. by rewrite (filter_ext_in P Q). Qed.
Lemma count_of_fmap {A B} (f : A -> B) (P : B -> Prop) `{forall x, Decision (P x)} l :
  count_of P (f <$> l) = count_of (fun x => P (f x)) l.
Proof.
  unfold count_of. f_equal. induction l as [|x l IH]; [done|]. csimpl. rewrite !filter_cons.
  repeat case_decide; simpl; auto.
Qed.

Lemma entries_sorted (P : Z -> node_meta -> Prop) `{forall i m, Decision (P i m)} (m : metadata_t) :
  entries P m = count_of (fun e => P e.1 e.2) (sorted_list m).
Proof. apply count_of_perm. by rewrite sorted_list_perm. Qed.
Lemma entries_zero (P : Z -> node_meta -> Prop) `{forall i m, Decision (P i m)} (m : metadata_t) :
  entries P m = 0 <-> forall i e, m !! i = Some e -> ~ P i e.
Proof.
  unfold entries. rewrite count_of_zero. split.
  - intros Hz i e Hi. apply (Hz (i, e)). by apply elem_of_map_to_list.
  - intros Hz [i e] Hi%elem_of_map_to_list. by apply Hz.
Qed.
Lemma entries_bound (P : Z -> node_meta -> Prop) `{forall i m, Decision (P i m)} b : wf_block b ->
  0 <= entries P (metadata b) <= 65535.
Proof.
  intros Hb. pose proof (count_of_bound (fun e => P e.1 e.2) (map_to_list (metadata b))) as Hc.
  destruct (wf_md b Hb) as [Hs _]. unfold size, map_size in Hs. unfold entries. lia.
Qed.
Lemma entries_total E W g main pos (P : vec3 -> block -> Z -> node_meta -> Prop)
    `{forall bp b i m, Decision (P bp b i m)} : setting E W g main pos ->
  0 <= total E main pos (fun bp b => entries (P bp b) (metadata b)) < 18446744073709551616.
Proof.
  intros HS. pose proof (total_bounds E W g main pos HS (fun bp b => entries (P bp b) (metadata b)) 65535
    ltac:(lia)) as Ht. feed specialize Ht; [|lia].
  intros k x b _ Hd. apply entries_bound. by eapply deserialize_wf.
Qed.

(** ** deletemeta *)

Lemma delmeta_body_ok E a inv node k bp x b : ext_ok E -> full_writes E -> block_at k bp ->
  deserialize E x = Ok b -> meta_in b ->
  let P := picked a inv (to_slice node) bp b in
  exists e b', e <> EFail /\
    delmeta_body E node a inv k x = Ret (e, (entries (fun i _ => P i) (metadata b), 0)) /\
    (entries (fun i _ => P i) (metadata b) = 0 -> e = ESkip) /\
    deserialize E (new_data e x) = Ok b' /\ (entries (fun i _ => P i) (metadata b) = 0 \/ norm b' = b') /\ metadata_changed (drop_chosen P) b b'.
Proof.
  intros HE Hf Hk Hd Hin P. pose proof (deserialize_wf E x b Hd) as Hb.
  destruct (block_at_key k bp Hk) as [Hr Hfk].
  unfold delmeta_body. rewrite Hd, Hfk.
  pose proof (filter_spec a inv bp b node) as Hfs.
  assert (forall i m, drop_chosen P i (strip (version b) m) = strip (version b) <$> drop_chosen P i m) as Hstrip.
  { intros i m. unfold drop_chosen. by case_decide. }
  assert (entries (fun i _ => P i) (metadata b) = 0 -> metadata_changed (drop_chosen P) b b) as Hrefl.
  { intros Hz. eapply metadata_changed_refl; [done|]. intros i m Hi. unfold drop_chosen.
    rewrite decide_False; [done|]. by eapply entries_zero in Hz. }
  destruct (node_filter (nimap b) node) as [id|] eqn:Enf.
  - rewrite (collect_loop _ P).
    2:{ intros i ([i' m] & -> & Hi%elem_of_sorted_list)%elem_of_list_fmap. simpl.
        apply idx_selected_ok; try done. by eapply Hin. }
    cbn [bindO]. set (l := filter P _).
    assert (Z.of_nat (length l) = entries (fun i _ => P i) (metadata b)) as Hlen.
    { rewrite entries_sorted. rewrite <-(count_of_fmap fst P). done. }
    case_bool_decide as Hl.
    + exists ESkip, b. rewrite Hl in Hlen. rewrite <-Hlen. split; [done|]. split; [done|]. split; [done|].
      split; [done|]. split; [by left|]. apply Hrefl. by rewrite <-Hlen.
    + set (md := foldl _ _ l).
      assert (forall i, md !! i = metadata b !! i ≫= drop_chosen P i) as Hmd.
      { intros i. unfold md. rewrite delete_loop. unfold drop_chosen.
        destruct (metadata b !! i) as [m|] eqn:Ei; simpl; [|by case_decide].
        apply decide_ext. unfold l. rewrite elem_of_list_filter. split; [by intros [? _]|].
        intros HP. split; [done|]. apply elem_of_list_fmap. exists (i, m). split; [done|].
        by apply elem_of_sorted_list. }
      assert (wf_block (set_metadata b md)) as Hb1.
      { apply wf_set_metadata; [done|]. eapply wf_metadata_upd; [apply (wf_md b Hb)|done|].
        intros i e e' Hi. unfold drop_chosen. case_decide; [done|]. intros [= <-].
        by apply (proj2 (wf_md b Hb)) in Hi as [_ ?]. }
      destruct (write_ok E _ (Z.of_nat (length l), 0) HE Hf Hb1) as (d & -> & Hd').
      eexists (EWrite d), _. rewrite Hlen. split; [done|]. split; [done|]. split.
      * intros Hz. rewrite Hz in Hlen. destruct Hl. by destruct l.
      * split; [exact Hd'|]. split; [right; by rewrite norm_idem|]. apply metadata_changed_norm; [done|done|].
        intros i m _ Hbl m'. unfold drop_chosen. case_decide; [done|]. by intros [= <-].
  - exists ESkip, b. assert (entries (fun i _ => P i) (metadata b) = 0) as Hz.
    { apply entries_zero. intros i m _. by apply lacks_not_picked. }
    rewrite Hz. split; [done|]. split; [done|]. split; [done|]. split; [done|]. split; [by left|]. by apply Hrefl.
Qed.

Lemma delmeta_picks E W g main input pos : setting E W g main pos ->
  acmd g = CDeleteMeta -> blocks E main meta_in ->
  let P := picked (aarea g) (invert g) (to_slice (anode g)) in
  edits E W g main input (to_slice (anode g))
    (MMeta (total E main pos (fun bp b => entries (fun i _ => P bp b i) (metadata b))))
    (fun bp b => forall i, is_Some (metadata b !! i) -> ~ P bp b i)
    (fun bp b => metadata_changed (drop_chosen (P bp b)) b).
Proof.
  intros HS Hc Hin P. destruct HS as [HE Hfull HW HO Hsup Hleg Hrdy Hkeys] eqn:EHS. clear EHS.
  set (names := to_slice (anode g)) in *.
  pose proof (entries_total E W g main pos (fun bp b i _ => P bp b i) HS) as Ht.
  pose proof (zero_total E W g main pos HS) as Ht0.
  apply (run_edit E W g main input pos HS false names (delmeta_body E (anode g) (aarea g) (invert g))
    (fun bp b => (entries (fun i _ => P bp b i) (metadata b), 0)) _ _ (fun c => MMeta c.1)).
  - unfold cmd_func. rewrite Hc. done.
  - intros k bp x Hk Hm Hv _. destruct (deserialize E x) as [b|] eqn:Ed.
    + destruct (delmeta_body_ok E (aarea g) (invert g) (anode g) k bp x b HE Hfull Hk Ed
        ltac:(by apply (Hin k x b))) as (e & b' & He & Hbody & Hz & Hd & Hcan & HR).
      exists e. split; [done|]. split; [done|]. split.
      * intros Hun. apply Hz, entries_zero. intros i m Hi. apply Hun. by eexists.
      * exists b'. split; [done|]. split; [|done]. destruct Hcan as [Hcan|?]; [left|by right].
        intros i [m Hi]. exact (proj1 (entries_zero _ _) Hcan i m Hi).
    + unfold delmeta_body. by rewrite Ed.
  - intros k bp x b Hk Hm Ed Hn.
    assert (forall i m, metadata b !! i = Some m -> ~ P bp b i) as Hns.
    { intros i m Hi. eapply passed_not_picked; [done|done|]. by eapply (Hin k x b). }
    split; [|split].
    + f_equal. by apply entries_zero.
    + intros i [m Hi]. by eapply Hns.
    + eapply metadata_changed_refl; [done|]. intros i m Hi. unfold drop_chosen. rewrite decide_False; [done|].
      by eapply Hns.
  - done.
  - simpl. lia.
Qed.

(** ** deletetimers *)

Lemma count_timers_total E W g main pos (P : vec3 -> block -> node_timer -> Prop)
    `{forall bp b t, Decision (P bp b t)} : setting E W g main pos ->
  0 <= total E main pos (fun bp b => count_of (P bp b) (timers b)) < 18446744073709551616.
Proof.
  intros HS. pose proof (total_bounds E W g main pos HS (fun bp b => count_of (P bp b) (timers b)) 65535
    ltac:(lia)) as Ht. feed specialize Ht; [|lia].
  intros k x b _ Hd. apply deserialize_wf in Hd. destruct (wf_tm b Hd) as [Hs _].
  pose proof (count_of_bound (P (pos k) b) (timers b)). lia.
Qed.

Lemma wf_set_timers b (P : node_timer -> Prop) `{forall t, Decision (P t)} : wf_block b ->
  wf_block (set_timers b (filter P (timers b))).
Proof.
  intros [? ? ? ? ? ? ? ? ? [Hs Ht]]. split; try done. cbn [timers set_timers]. split.
  - pose proof (filter_length P (timers b)). lia.
  - apply Forall_forall. intros t [_ Hin]%elem_of_list_filter. by eapply Forall_forall in Ht.
Qed.

Lemma filter_all {A} (P : A -> Prop) `{forall x, Decision (P x)} (l : list A) : (forall x, x ∈ l -> P x) -> filter P l = l.
Proof.
  induction l as [|x l IH]; [done|]. intros Hl. rewrite filter_cons, decide_True by (apply Hl; left).
  f_equal. apply IH. intros y Hy. apply Hl. by right.
Qed.

Lemma deltimers_body_ok E a inv node k bp x b : ext_ok E -> full_writes E -> block_at k bp ->
  deserialize E x = Ok b -> timers_in b ->
  let P := fun t => picked a inv (to_slice node) bp b (tpos t) in
  exists e b', e <> EFail /\
    deltimers_body E node a inv k x = Ret (e, (count_of P (timers b), 0)) /\
    (count_of P (timers b) = 0 -> e = ESkip) /\
    deserialize E (new_data e x) = Ok b' /\ (count_of P (timers b) = 0 \/ norm b' = b') /\
    norm b' = with_timers (norm b) (filter (fun t => ~ P t) (timers b)).
Proof.
  intros HE Hf Hk Hd Hin P. pose proof (deserialize_wf E x b Hd) as Hb.
  destruct (block_at_key k bp Hk) as [Hr Hfk].
  unfold deltimers_body. rewrite Hd, Hfk.
  pose proof (filter_spec a inv bp b node) as Hfs.
  assert (count_of P (timers b) = 0 -> norm b = with_timers (norm b) (filter (fun t => ~ P t) (timers b))) as Hrefl.
  { intros Hz. rewrite filter_all; [by destruct b|]. exact (proj1 (count_of_zero P (timers b)) Hz). }
  destruct (node_filter (nimap b) node) as [id|] eqn:Enf.
  - assert (forall t, t ∈ timers b -> idx_selected (nodes (ndata b)) (vmuls bp 16) a inv id (tpos t)
      = Ret (bool_decide (P t))) as Hsel.
    { intros t Ht. apply idx_selected_ok; try done. by eapply Forall_forall in Hin. }
    rewrite (delete_rev_loop _ P _ Hsel). cbn [bindO].
    destruct (count_of P (timers b) =? 0) eqn:Ez.
    + apply Z.eqb_eq in Ez. exists ESkip, b. rewrite Ez. split; [done|]. split; [done|]. split; [done|]. split; [done|]. split; [by left|]. by apply Hrefl.
    + destruct (write_ok E _ (count_of P (timers b), 0) HE Hf (wf_set_timers b (fun t => ~ P t) Hb)) as (d & -> & Hd').
      eexists (EWrite d), _. split; [done|]. split; [done|]. split; [lia|]. split; [exact Hd'|]. split; [right; by rewrite norm_idem|].
      by rewrite norm_idem.
  - exists ESkip, b. assert (count_of P (timers b) = 0) as Hz.
    { apply count_of_zero. intros t _. by apply lacks_not_picked. }
    rewrite Hz. split; [done|]. split; [done|]. split; [done|]. split; [done|]. split; [by left|]. by apply Hrefl.
Qed.

Lemma deltimers_picks E W g main input pos : setting E W g main pos ->
  acmd g = CDeleteTimers -> blocks E main timers_in ->
  let P := fun bp b t => picked (aarea g) (invert g) (to_slice (anode g)) bp b (tpos t) in
  edits E W g main input (to_slice (anode g))
    (MTimers (total E main pos (fun bp b => count_of (P bp b) (timers b))))
    (fun bp b => forall t, t ∈ timers b -> ~ P bp b t)
    (fun bp b b' => norm b' = with_timers (norm b) (filter (fun t => ~ P bp b t) (timers b))).
Proof.
  intros HS Hc Hin P. destruct HS as [HE Hfull HW HO Hsup Hleg Hrdy Hkeys] eqn:EHS. clear EHS.
  set (names := to_slice (anode g)) in *.
  pose proof (count_timers_total E W g main pos P HS) as Ht.
  pose proof (zero_total E W g main pos HS) as Ht0.
  apply (run_edit E W g main input pos HS false names (deltimers_body E (anode g) (aarea g) (invert g))
    (fun bp b => (count_of (P bp b) (timers b), 0)) _ _ (fun c => MTimers c.1)).
  - unfold cmd_func. rewrite Hc. done.
  - intros k bp x Hk Hm Hv _. destruct (deserialize E x) as [b|] eqn:Ed.
    + destruct (deltimers_body_ok E (aarea g) (invert g) (anode g) k bp x b HE Hfull Hk Ed
        ltac:(by apply (Hin k x b))) as (e & b' & He & Hbody & Hz & Hd & Hcan & HR).
      exists e. split; [done|]. split; [done|]. split.
      * intros Hun. by apply Hz, count_of_zero.
      * exists b'. split; [done|]. split; [|done]. destruct Hcan as [Hcan|?]; [left|by right].
        exact (proj1 (count_of_zero _ _) Hcan).
    + unfold deltimers_body. by rewrite Ed.
  - intros k bp x b Hk Hm Ed Hn.
    assert (forall t, t ∈ timers b -> ~ P bp b t) as Hns.
    { intros t Ht'. eapply passed_not_picked; [done|done|].
      pose proof (Hin k x b Hm Ed) as Hti. by eapply Forall_forall in Hti. }
    split; [|split].
    + f_equal. by apply count_of_zero.
    + done.
    + rewrite filter_all by done. by destruct b.
  - done.
  - simpl. lia.
Qed.

(** ** setmetavar *)

Lemma upd_loop (f : Z -> node_meta -> option node_meta) (g : Z -> node_meta -> out bool) (P : Z -> node_meta -> Prop)
    `{forall i m, Decision (P i m)} (m0 : metadata_t) :
  (forall i m, m0 !! i = Some m -> g i m = Ret (bool_decide (P i m))) ->
  exists md, foldO (fun (st : metadata_t * Z) (e : Z * node_meta) =>
      let* sel := g e.1 e.2 in
      Ret (if sel : bool then
             match f e.1 e.2 with
             | Some m => (<[e.1 := m]> st.1, st.2 + 1)
             | None => st
             end
           else st)) (sorted_list m0) (m0, 0)
    = Ret (md, entries (fun i m => P i m /\ is_Some (f i m)) m0) /\
    forall i, md !! i = m0 !! i ≫= fun m => Some (if decide (P i m) then default m (f i m) else m).
Proof.
  intros Hg.
  assert (forall e, e ∈ sorted_list m0 -> m0 !! e.1 = Some e.2) as Hel.
  { intros [i m] Hi. by apply elem_of_sorted_list in Hi. }
  rewrite entries_sorted.
  pose proof (sorted_list_NoDup m0) as Hnd.
  edestruct (foldO_inv (fun (st : metadata_t * Z) (e : Z * node_meta) =>
      let* sel := g e.1 e.2 in
      Ret (if sel : bool then
             match f e.1 e.2 with
             | Some m => (<[e.1 := m]> st.1, st.2 + 1)
             | None => st
             end
           else st))
    (fun d st => st.2 = count_of (fun e => P e.1 e.2 /\ is_Some (f e.1 e.2)) d /\
      forall i, st.1 !! i = m0 !! i ≫= fun m => Some (if decide (i ∈ d.*1 /\ P i m) then default m (f i m) else m))
    (sorted_list m0) (m0, 0)) as ([md n] & -> & Hn & Hmd); cbn [fst snd] in *.
  - split; [done|]. intros i. by destruct (m0 !! i).
  - intros d [i m] r [md n] Ed [Hn Hmd]. cbn [fst snd] in *.
    assert (m0 !! i = Some m) as Hi by (apply (Hel (i, m)); rewrite Ed; set_solver).
    rewrite Hg by done. cbn [bindO]. eexists. split; [done|].
    assert (i ∉ d.*1) as Hid.
    { rewrite Ed, fmap_app in Hnd. apply NoDup_app in Hnd as (_ & Hnd & _). intros Hx. apply (Hnd i Hx). csimpl. left. }
    unfold count_of. rewrite filter_app, app_length, filter_cons, filter_nil. cbn [fst snd].
    fold (count_of (fun e : Z * node_meta => P e.1 e.2 /\ is_Some (f e.1 e.2)) d).
    assert (forall j, j <> i -> forall m', (j ∈ (d ++ [(i, m)]).*1 /\ P j m') <-> (j ∈ d.*1 /\ P j m')) as Hother.
    { intros j Hj m'. rewrite fmap_app, elem_of_app. csimpl. rewrite elem_of_list_singleton. naive_solver. }
    assert (i ∈ (d ++ [(i, m)]).*1) as Hin by (rewrite fmap_app; csimpl; set_solver).
    destruct (bool_decide_reflect (P i m)) as [HP|HP]; [destruct (f i m) as [m1|] eqn:Ef|]; cbn [fst snd].
    + rewrite decide_True by (split; [done|by eexists]). split; [unfold count_of in *; simpl; lia|].
      intros j. destruct (decide (j = i)) as [->|Hj].
      * rewrite lookup_insert, Hi. cbn. rewrite decide_True by done. by rewrite Ef.
      * rewrite lookup_insert_ne by done. rewrite Hmd. destruct (m0 !! j) as [m'|]; [|done]. cbn. f_equal.
        apply decide_ext. by rewrite Hother.
    + rewrite decide_False by (by intros [_ [? ?]]). split; [unfold count_of in *; simpl; lia|].
      intros j. rewrite Hmd. destruct (m0 !! j) as [m'|] eqn:Ej; [|done]. cbn. f_equal.
      destruct (decide (j = i)) as [->|Hj].
      * rewrite Hi in Ej. injection Ej as ->. rewrite Ef. simpl. by repeat case_decide.
      * apply decide_ext. by rewrite Hother.
    + rewrite decide_False by (by intros [? _]). split; [unfold count_of in *; simpl; lia|].
      intros j. rewrite Hmd. destruct (m0 !! j) as [m'|] eqn:Ej; [|done]. cbn. f_equal.
      destruct (decide (j = i)) as [->|Hj].
      * rewrite Hi in Ej. injection Ej as ->. rewrite !decide_False by tauto. done.
      * apply decide_ext. by rewrite Hother.
  - exists md. subst n. split; [done|]. intros i. rewrite Hmd. destruct (m0 !! i) as [m|] eqn:Ei; [|done]. cbn. f_equal.
    apply decide_ext. split; [by intros [_ ?]|]. intros HP. split; [|done]. apply elem_of_list_fmap.
    exists (i, m). split; [done|]. by apply elem_of_sorted_list.
Qed.

(** The update of setmetavar *)
Definition new_value (del : bool) (value : bytes) : option bytes := if del then None else Some value.

Lemma set_var_change key value del m :
  set_var key value del m = if decide (is_Some (vars m !! key)) then Some (change_var key (new_value del value) m) else None.
Proof.
  unfold set_var, change_var, new_value. destruct (vars m !! key) as [v|] eqn:Ev.
  - rewrite decide_True by (by eexists). destruct del; [done|]. do 2 f_equal.
    apply map_eq. intros k. destruct (decide (k = key)) as [->|Hk].
    + by rewrite lookup_insert, lookup_alter, Ev.
    + by rewrite lookup_insert_ne, lookup_alter_ne.
  - rewrite decide_False; [done|]. by intros [? ?].
Qed.
Lemma change_var_none key value m : vars m !! key = None -> change_var key value m = m.
Proof.
  intros Hk. unfold change_var. destruct m as [vs iv], value; simpl in *; f_equal.
  - apply map_eq. intros k. destruct (decide (k = key)) as [->|?]; [by rewrite lookup_alter, Hk|].
    by rewrite lookup_alter_ne.
  - by apply delete_notin.
Qed.
Lemma change_var_strip key value v m : change_var key value (strip v m) = strip v (change_var key value m).
Proof.
  unfold strip. destruct (28 <=? v); [done|]. unfold change_var, strip_private. simpl. f_equal.
  destruct value as [w|].
  - apply map_eq. intros k. rewrite lookup_fmap. destruct (decide (k = key)) as [->|?].
    + rewrite !lookup_alter, lookup_fmap. by destruct (vars m !! key).
    + by rewrite !lookup_alter_ne, lookup_fmap.
  - by rewrite fmap_delete.
Qed.
Lemma change_var_blank key value m : blank m -> blank (change_var key value m).
Proof.
  intros [Hv Hi]. rewrite change_var_none; [done|]. rewrite Hv. apply lookup_empty.
Qed.
Lemma change_var_wf key value m : wf_meta m -> (forall v, value = Some v -> fits32 v) ->
  wf_meta (change_var key value m).
Proof.
  intros (Hs & Hv & Hi) Hf. unfold wf_meta, change_var. cbn [vars inv]. destruct value as [w|].
  - split; [|split; [|done]].
    + rewrite <-(size_dom (D := gset bytes)) in *. rewrite dom_alter_L. done.
    + intros k v Hk. apply lookup_alter_Some in Hk as [(<- & old & Hk & ->)|[_ Hk]].
      * apply Hv in Hk. split; [apply Hk|by apply Hf].
      * by apply Hv in Hk.
  - split; [|split; [|done]].
    + enough (size (delete key (vars m)) <= size (vars m))%nat by lia.
      rewrite <-!(size_dom (D := gset bytes)). apply subseteq_size. rewrite dom_delete_L. set_solver.
    + by apply map_Forall_delete.
Qed.

Lemma setvar_body_ok E a inv names key value del k bp x b : ext_ok E -> full_writes E -> block_at k bp ->
  deserialize E x = Ok b -> meta_in b -> fits32 value ->
  let P := picked a inv names bp b in
  let n := entries (fun i m => P i /\ is_Some (vars m !! key)) (metadata b) in
  exists e b', e <> EFail /\
    setvar_body E key value del names a inv k x = Ret (e, (n, 0)) /\ (n = 0 -> e = ESkip) /\
    deserialize E (new_data e x) = Ok b' /\ (n = 0 \/ norm b' = b') /\
    metadata_changed (change_chosen (change_var key (new_value del value)) P) b b'.
Proof.
  intros HE Hf Hk Hd Hin Hval P n. pose proof (deserialize_wf E x b Hd) as Hb.
  destruct (block_at_key k bp Hk) as [Hr Hfk].
  unfold setvar_body. rewrite Hd, Hfk.
  pose proof (any_filter_spec bp b a inv names) as Hfs.
  set (upd := change_chosen (change_var key (new_value del value)) P).
  assert (forall i m, upd i (strip (version b) m) = strip (version b) <$> upd i m) as Hstrip.
  { intros i m. unfold upd, change_chosen. case_decide; simpl; [|done]. by rewrite change_var_strip. }
  assert (n = 0 -> metadata_changed upd b b) as Hrefl.
  { intros Hz. eapply metadata_changed_refl; [done|]. intros i m Hi. rewrite Hstrip. unfold upd, change_chosen.
    case_decide as HP; [|done]. simpl. do 2 f_equal. apply change_var_none. apply eq_None_not_Some. intros Hs.
    exact (proj1 (entries_zero _ _) Hz i m Hi (conj HP Hs)). }
  destruct (nodes_filter (nimap b) names) as [ids|] eqn:Enf.
  - destruct (upd_loop (fun _ => set_var key value del)
      (fun i _ => idx_selected_any (nodes (ndata b)) (vmuls bp 16) a inv ids i) (fun i _ => P i) (metadata b))
      as (md & Eloop & Hmd).
    { intros i m Hi. apply idx_selected_any_ok; try done. by eapply Hin. }
    rewrite Eloop. clear Eloop. cbn [bindO].
    assert (entries (fun i m => P i /\ is_Some (set_var key value del m)) (metadata b) = n) as ->.
    { apply count_of_ext. intros [i m] _. simpl. rewrite set_var_change. case_decide; [|].
      - split; intros [? _]; split; try done; by eexists.
      - split; intros [? Hs]; [by destruct Hs|done]. }
    destruct (n =? 0) eqn:Ez.
    + apply Z.eqb_eq in Ez. exists ESkip, b. rewrite Ez. split; [done|]. split; [done|]. split; [done|]. split; [done|]. split; [by left|]. by apply Hrefl.
    + assert (forall i, md !! i = metadata b !! i ≫= upd i) as Hmd'.
      { intros i. rewrite Hmd. destruct (metadata b !! i) as [m|]; simpl; [|done]. unfold upd, change_chosen.
        f_equal. case_decide; [|done]. rewrite set_var_change. case_decide as Hs; simpl; [done|].
        symmetry. apply change_var_none. by apply eq_None_not_Some. }
      assert (wf_block (set_metadata b md)) as Hb1.
      { apply wf_set_metadata; [done|]. eapply wf_metadata_upd; [apply (wf_md b Hb)|done|].
        intros i e e' Hi. unfold upd, change_chosen. intros [= <-].
        apply (proj2 (wf_md b Hb)) in Hi as [_ ?]. case_decide; [|done]. apply change_var_wf; [done|].
        unfold new_value. destruct del; [done|]. by intros v [= <-]. }
      destruct (write_ok E _ (n, 0) HE Hf Hb1) as (d & -> & Hd').
      eexists (EWrite d), _. split; [done|]. split; [done|]. split; [lia|].
      split; [exact Hd'|]. split; [right; by rewrite norm_idem|]. apply metadata_changed_norm; [done|done|].
      intros i m _ Hbl m'. unfold upd, change_chosen. intros [= <-]. case_decide; [|done].
      by apply change_var_blank.
  - exists ESkip, b. assert (n = 0) as Hz.
    { apply entries_zero. intros i m _ [HP _]. by eapply lacks_not_picked. }
    rewrite Hz. split; [done|]. split; [done|]. split; [done|]. split; [done|]. split; [by left|]. by apply Hrefl.
Qed.

Lemma setvar_picks E W g main input pos key : setting E W g main pos ->
  acmd g = CSetMetaVar -> akey g = Some key -> (forall v, avalue g = Some v -> fits32 v) ->
  blocks E main meta_in ->
  let P := picked (aarea g) (invert g) (anodes g) in
  edits E W g main input (anodes g)
    (MVars (total E main pos (fun bp b => entries (fun i m => P bp b i /\ is_Some (vars m !! key)) (metadata b))))
    (fun bp b => forall i m, metadata b !! i = Some m -> P bp b i -> vars m !! key = None)
    (fun bp b => metadata_changed (change_chosen (change_var key (avalue g)) (P bp b)) b).
Proof.
  intros HS Hc Hkey Hval Hin P. destruct HS as [HE Hfull HW HO Hsup Hleg Hrdy Hkeys] eqn:EHS. clear EHS.
  set (names := anodes g) in *.
  pose proof (entries_total E W g main pos (fun bp b i m => P bp b i /\ is_Some (vars m !! key)) HS) as Ht.
  pose proof (zero_total E W g main pos HS) as Ht0.
  assert (new_value (adelete g) (default [] (avalue g)) = avalue g /\ fits32 (default [] (avalue g))) as [Hnv Hfit].
  { destruct Hleg as (_ & _ & _ & _ & Hleg). rewrite Hc in Hleg. unfold new_value.
    destruct (avalue g) as [v|].
    - destruct Hleg as [-> _]. split; [done|]. by apply Hval.
    - rewrite Hleg. done. }
  apply (run_edit E W g main input pos HS false names
    (setvar_body E key (default [] (avalue g)) (adelete g) names (aarea g) (invert g))
    (fun bp b => (entries (fun i m => P bp b i /\ is_Some (vars m !! key)) (metadata b), 0)) _ _ (fun c => MVars c.1)).
  - unfold cmd_func. rewrite Hc. unfold set_meta_var. rewrite Hkey. done.
  - intros k bp x Hk Hm Hv _. destruct (deserialize E x) as [b|] eqn:Ed.
    + destruct (setvar_body_ok E (aarea g) (invert g) names key (default [] (avalue g)) (adelete g) k bp x b HE Hfull Hk Ed
        ltac:(by apply (Hin k x b)) Hfit)
        as (e & b' & He & Hbody & Hz & Hd & Hcan & HR).
      rewrite Hnv in HR. exists e. split; [done|]. split; [done|]. split.
      * intros Hun. apply Hz, entries_zero. intros i m Hi [HP [v Hs]]. by rewrite (Hun i m Hi HP) in Hs.
      * exists b'. split; [done|]. split; [|done]. destruct Hcan as [Hcan|?]; [left|by right].
        intros i m Hi HP. apply eq_None_not_Some. intros Hs. exact (proj1 (entries_zero _ _) Hcan i m Hi (conj HP Hs)).
    + unfold setvar_body. by rewrite Ed.
  - intros k bp x b Hk Hm Ed Hn.
    assert (forall i m, metadata b !! i = Some m -> ~ P bp b i) as Hns.
    { intros i m Hi. eapply passed_not_picked; [done|done|]. by eapply (Hin k x b). }
    split; [|split].
    + f_equal. apply entries_zero. intros i m Hi [? _]. by eapply Hns.
    + intros i m Hi HP. by destruct (Hns i m Hi).
    + eapply metadata_changed_refl; [done|]. intros i m Hi. unfold change_chosen. rewrite decide_False; [done|].
      by eapply Hns.
  - done.
  - simpl. lia.
Qed.

(** ** Names that are registered once *)

Lemma metadata_changed_eq upd upd' b b' : (forall i m, upd i m = upd' i m) ->
  metadata_changed upd b b' -> metadata_changed upd' b b'.
Proof.
  intros H (md & Hn & Hmd). exists md. split; [done|]. intros i. rewrite Hmd.
  destruct (metadata (norm b) !! i) as [m|]; [|done]. simpl. by rewrite H.
Qed.
Lemma drop_chosen_eq (P Q : Z -> Prop) {HP : forall i, Decision (P i)} {HQ : forall i, Decision (Q i)} i m :
  (P i <-> Q i) -> drop_chosen P i m = drop_chosen Q i m.
Proof. intros H. by apply decide_ext. Qed.
Lemma change_chosen_eq f (P Q : Z -> Prop) {HP : forall i, Decision (P i)} {HQ : forall i, Decision (Q i)} i m :
  (P i <-> Q i) -> change_chosen f P i m = change_chosen f Q i m.
Proof. intros H. unfold change_chosen. f_equal. by apply decide_ext. Qed.

Lemma delmeta_run E W g main input pos : setting E W g main pos ->
  acmd g = CDeleteMeta -> blocks E main meta_in ->
  (is_Some (anode g) -> blocks E main unique_names) ->
  let P := chosen (aarea g) (invert g) (to_slice (anode g)) in
  edits E W g main input (to_slice (anode g))
    (MMeta (total E main pos (fun bp b => entries (fun i _ => P bp b i) (metadata b))))
    (fun bp b => forall i, is_Some (metadata b !! i) -> ~ P bp b i)
    (fun bp b => metadata_changed (drop_chosen (P bp b)) b).
Proof.
  intros HS Hc Hin Hub P.
  assert (forall k x b bp i, main !! k = Some x -> deserialize E x = Ok b ->
    picked (aarea g) (invert g) (to_slice (anode g)) bp b i <-> P bp b i) as Heq.
  { intros k x b bp i Hx Ed. apply picked_unique, once_or_all. intros Hn. by apply (Hub Hn k x b). }
  eapply edits_mono; [| |exact (delmeta_picks E W g main input pos HS Hc Hin)].
  - f_equal. apply total_eq. intros k x b Hx Ed. apply count_of_ext. intros [i m] _. by apply (Heq k x).
  - intros k bp x b _ Hx Ed. split.
    + split; intros H i Hi HP; (eapply H; [exact Hi|]); by apply (Heq k x b).
    + intros b'. apply metadata_changed_eq. intros i m. apply drop_chosen_eq. by apply (Heq k x b).
Qed.

Lemma deltimers_run E W g main input pos : setting E W g main pos ->
  acmd g = CDeleteTimers -> blocks E main timers_in ->
  (is_Some (anode g) -> blocks E main unique_names) ->
  let P := fun bp b t => chosen (aarea g) (invert g) (to_slice (anode g)) bp b (tpos t) in
  edits E W g main input (to_slice (anode g))
    (MTimers (total E main pos (fun bp b => count_of (P bp b) (timers b))))
    (fun bp b => forall t, t ∈ timers b -> ~ P bp b t)
    (fun bp b b' => norm b' = with_timers (norm b) (filter (fun t => ~ P bp b t) (timers b))).
Proof.
  intros HS Hc Hin Hub P.
  assert (forall k x b bp i, main !! k = Some x -> deserialize E x = Ok b ->
    picked (aarea g) (invert g) (to_slice (anode g)) bp b i <-> chosen (aarea g) (invert g) (to_slice (anode g)) bp b i) as Heq.
  { intros k x b bp i Hx Ed. apply picked_unique, once_or_all. intros Hn. by apply (Hub Hn k x b). }
  eapply edits_mono; [| |exact (deltimers_picks E W g main input pos HS Hc Hin)].
  - f_equal. apply total_eq. intros k x b Hx Ed. apply count_of_ext. intros t _. by apply (Heq k x).
  - intros k bp x b _ Hx Ed. split.
    + split; intros H t Ht HP; (eapply H; [exact Ht|]); by apply (Heq k x b).
    + intros b' ->. f_equal. apply filter_ext_in. intros t _. unfold P. by rewrite (Heq k x b bp (tpos t) Hx Ed).
Qed.

Lemma setvar_run E W g main input pos key : setting E W g main pos ->
  acmd g = CSetMetaVar -> akey g = Some key -> (forall v, avalue g = Some v -> fits32 v) ->
  blocks E main meta_in -> (anodes g <> [] -> blocks E main unique_names) ->
  let P := chosen (aarea g) (invert g) (anodes g) in
  edits E W g main input (anodes g)
    (MVars (total E main pos (fun bp b => entries (fun i m => P bp b i /\ is_Some (vars m !! key)) (metadata b))))
    (fun bp b => forall i m, metadata b !! i = Some m -> P bp b i -> vars m !! key = None)
    (fun bp b => metadata_changed (change_chosen (change_var key (avalue g)) (P bp b)) b).
Proof.
  intros HS Hc Hkey Hval Hin Hub P.
  assert (forall k x b bp i, main !! k = Some x -> deserialize E x = Ok b ->
    picked (aarea g) (invert g) (anodes g) bp b i <-> P bp b i) as Heq.
  { intros k x b bp i Hx Ed. apply picked_unique. destruct (decide (anodes g = [])) as [?|Hn]; [by right|left].
    by apply (Hub Hn k x b). }
  eapply edits_mono; [| |exact (setvar_picks E W g main input pos key HS Hc Hkey Hval Hin)].
  - f_equal. apply total_eq. intros k x b Hx Ed. apply count_of_ext. intros [i m] _. simpl.
    by rewrite (Heq k x b (pos k) i Hx Ed).
  - intros k bp x b _ Hx Ed. split.
    + split; intros H i m Hi HP; (eapply H; [exact Hi|]); by apply (Heq k x b).
    + intros b'. apply metadata_changed_eq. intros i m. apply change_chosen_eq. by apply (Heq k x b).
Qed.
