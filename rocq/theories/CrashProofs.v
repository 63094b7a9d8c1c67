(** Exactly which blocks make the commands that edit blocks in place panic *)
From Verif Require Import SpecCrash QueryProofs RunProofs ThreadProofs EditProofs SysProofs MapProofs CodecProofs
  SpatialProofs CodecRound BlockProofs UtilsProofs BodyProofs NodeProofs MetaProofs ObjProofs InvProofs PanicProofs ArgProofs.
From Verif Require Import Spec.

Notation edit_res := (out (edit * counts)).

(** The body panics if [F], and otherwise does not. *)
Definition exact (F : Prop) (o : edit_res) : Prop := (F -> o = Panic) /\ (~ F -> safe o).

(** ** Loops that panic *)

Lemma foldO_panic {A B} (f : A -> B -> out A) (P : A -> Prop) l a x : P a -> x ∈ l ->
  (forall a, P a -> f a x = Panic) ->
  (forall a y, y ∈ l -> P a -> f a y = Panic \/ exists a', f a y = Ret a' /\ P a') -> foldO f l a = Panic.
Proof.
  intros Ha Hx Hp. revert a Ha. induction l as [|y l IH]; intros a Ha Hf; [set_solver|]. cbn [foldO].
  destruct (Hf a y ltac:(set_solver) Ha) as [->|(a' & Ea & Ha')]; [done|].
  apply elem_of_cons in Hx as [->|Hx]; [by rewrite Hp in Ea|].
  rewrite Ea. cbn [bindO]. apply IH; [done..|]. intros b z Hz. apply Hf. set_solver.
Qed.

Lemma delete_rev_panic {A} (f : A -> out bool) l x : x ∈ l -> f x = Panic ->
  foldO (fun (st : list A * Z) i =>
      let* t := unwrap (st.1 !! i) in
      let* sel := f t in
      Ret (if sel : bool then (list_delete i st.1, st.2 + 1) else st)) (rev_indices l) (l, 0) = Panic.
Proof.
  intros Hx Hp.
  enough (forall rest n, foldO (fun (st : list A * Z) i =>
      let* t := unwrap (st.1 !! i) in
      let* sel := f t in
      Ret (if sel : bool then (list_delete i st.1, st.2 + 1) else st)) (rev_indices l) (l ++ rest, n) = Panic) as H1.
  { specialize (H1 [] 0). by rewrite !app_nil_r in H1. }
  induction l as [|y l IH] using rev_ind; intros rest n; [set_solver|].
  rewrite rev_indices_snoc. cbn [foldO fst snd]. rewrite <-app_assoc. cbn [app].
  rewrite (list_lookup_middle l rest y (length l)) by done. cbn [unwrap bindO].
  apply elem_of_app in Hx as [Hx|Hx%elem_of_list_singleton].
  - destruct (f y) as [s|]; [|done]. cbn [bindO]. destruct s; [|by apply IH].
    change (list_delete (length l) (l ++ y :: rest)) with (delete (length l) (l ++ y :: rest)).
    rewrite delete_middle. by apply IH.
  - subst y. by rewrite Hp.
Qed.

(** ** Filtering by node *)

Lemma abs_alias bp i : key_range bp -> 0 <= i < 65536 ->
  vadd (from_u16_key i) (vmuls bp 16) = abs_pos bp (i mod 4096).
Proof.
  intros Hr Hi. rewrite index_alias by done. apply abs_index; [done|].
  apply Z.mod_pos_bound. lia.
Qed.
Lemma mod_small i : 0 <= i < 4096 -> i mod 4096 = i.
Proof. intros H. by apply Z.mod_small. Qed.
Lemma vget_far {A} (l : list A) i : Z.of_nat (length l) <= i -> vget l i = Panic.
Proof.
  intros H. unfold vget. destruct (i <? 0); [done|]. rewrite lookup_ge_None_2; [done|]. lia.
Qed.

Lemma idx_selected_exact ns bp a inv (id : option Z) i : key_range bp -> Z.of_nat (length ns) = 4096 ->
  0 <= i < 65536 ->
  (is_Some id /\ stray a inv bp i -> idx_selected ns (vmuls bp 16) a inv id i = Panic) /\
  (~ (is_Some id /\ stray a inv bp i) -> exists s, idx_selected ns (vmuls bp 16) a inv id i = Ret s).
Proof.
  intros Hr Hl Hi. unfold idx_selected. rewrite abs_alias, area_test by done.
  set (S := selected a inv (abs_pos bp (i mod 4096))). unfold stray. fold S. split.
  - intros [[j ->] [Hge Hs]]. rewrite bool_decide_true by done. cbn [negb]. rewrite vget_far by lia. done.
  - intros H. destruct (bool_decide_reflect S) as [Hs|Hs]; cbn [negb]; [|by eexists].
    destruct id as [j|]; [|by eexists]. destruct (decide (4096 <= i)) as [Hge|Hlt].
    + destruct H. split; [by eexists|done].
    + destruct (lookup_lt_is_Some_2 ns (Z.to_nat i)) as [y Hy]; [lia|]. rewrite (vget_Ret ns i y) by (done || lia). by eexists.
Qed.
Lemma idx_selected_any_exact ns bp a inv (ids : list Z) i : key_range bp -> Z.of_nat (length ns) = 4096 ->
  0 <= i < 65536 ->
  (ids <> [] /\ stray a inv bp i -> idx_selected_any ns (vmuls bp 16) a inv ids i = Panic) /\
  (~ (ids <> [] /\ stray a inv bp i) -> exists s, idx_selected_any ns (vmuls bp 16) a inv ids i = Ret s).
Proof.
  intros Hr Hl Hi. unfold idx_selected_any. rewrite abs_alias, area_test by done.
  set (S := selected a inv (abs_pos bp (i mod 4096))). unfold stray. fold S. split.
  - intros (Hids & Hge & Hs). rewrite bool_decide_true by done. cbn [negb]. rewrite bool_decide_false by done.
    rewrite vget_far by lia. done.
  - intros H. destruct (bool_decide_reflect S) as [Hs|Hs]; cbn [negb]; [|by eexists].
    case_bool_decide as Hids; [by eexists|]. destruct (decide (4096 <= i)) as [Hge|Hlt].
    + by destruct H.
    + destruct (lookup_lt_is_Some_2 ns (Z.to_nat i)) as [y Hy]; [lia|]. rewrite (vget_Ret ns i y) by (done || lia). by eexists.
Qed.

Lemma registered_id n b : registered n b <-> is_Some (get_id (nimap b) n).
Proof.
  split.
  - intros [id Hid]. destruct (get_id (nimap b) n) eqn:E; [by eexists|]. by apply get_id_None with (k := id) in E.
  - intros [id E]. apply get_id_Some in E as [H _]. by exists id.
Qed.
Lemma node_filter_registered b node : match node_filter (nimap b) node with
  | None => ~ exists n, n ∈ o2l node /\ registered n b
  | Some id => is_Some id <-> exists n, n ∈ o2l node /\ registered n b
  end.
Proof.
  destruct node as [n|]; cbn [node_filter o2l].
  - destruct (get_id (nimap b) n) as [id|] eqn:E.
    + split; [|by eexists]. intros _. exists n. split; [set_solver|]. apply registered_id. by rewrite E.
    + intros (n' & ->%elem_of_list_singleton & Hr). apply registered_id in Hr. rewrite E in Hr. by destruct Hr.
  - split; [by intros []|]. intros (n & H & _). set_solver.
Qed.
Lemma nodes_filter_registered b names : match nodes_filter (nimap b) names with
  | None => ~ exists n, n ∈ names /\ registered n b
  | Some ids => ids <> [] <-> exists n, n ∈ names /\ registered n b
  end.
Proof.
  assert (forall ids, omap (get_id (nimap b)) names = ids ->
    ids <> [] <-> exists n, n ∈ names /\ registered n b) as H.
  { intros ids <-. split.
    - intros Hne. destruct (omap (get_id (nimap b)) names) as [|id l] eqn:E; [done|].
      assert (id ∈ omap (get_id (nimap b)) names) as Hid by (rewrite E; set_solver).
      apply elem_of_list_omap in Hid as (n & Hn & Hg). exists n. split; [done|]. apply registered_id. by rewrite Hg.
    - intros (n & Hn & [id Hid]%registered_id) He.
      assert (id ∈ omap (get_id (nimap b)) names) as H by (apply elem_of_list_omap; eauto). rewrite He in H. set_solver. }
  unfold nodes_filter. destruct (_ && _) eqn:E; [|by apply H].
  apply andb_true_iff in E as [_ E%bool_decide_eq_true]. intros Hr. by apply (H _ eq_refl).
Qed.

(** ** The commands *)

Section Exact.
  Context (E : ext) (HE : ext_ok E) (k : Z) (bp : vec3) (Hk : block_at k bp) (x : bytes) (b : block)
    (Hd : deserialize E x = Ok b).

  Let Hwf : wf_block b := is_wf E x b Hd.
  Lemma len_nodes : Z.of_nat (length (nodes (ndata b))) = 4096.
  Proof using Hd. exact (proj1 (wf_lens b Hwf)). Qed.
  Lemma meta_u16 i : is_Some (metadata b !! i) -> 0 <= i < 65536.
  Proof using Hd. intros [m Hm]. pose proof (wf_md b Hwf) as [_ H]. apply H in Hm as [Hi _]. exact Hi. Qed.
  Lemma timer_u16 t : t ∈ timers b -> 0 <= tpos t < 65536.
  Proof using Hd.
    intros Ht. pose proof (wf_tm b Hwf) as [_ H]. rewrite Forall_forall in H. apply H in Ht. exact (proj1 Ht).
  Qed.
  Lemma key_here : key_range bp /\ from_block_key k = bp.
  Proof using Hk. by apply block_at_key. Qed.

  Lemma delmeta_exact node a inv_ :
    exact ((exists n, n ∈ o2l node /\ registered n b) /\ exists i, is_Some (metadata b !! i) /\ stray a inv_ bp i)
      (delmeta_body E node a inv_ k x).
  Proof using HE Hd Hk.
    destruct key_here as [Hr Hfk]. unfold delmeta_body. rewrite Hd, Hfk. cbv zeta.
    pose proof (node_filter_registered b node) as Hn. destruct (node_filter (nimap b) node) as [id|].
    2:{ split; [by intros [? _]|]. intros _. apply safe_skip. }
    assert (forall i, i ∈ (sorted_list (metadata b)).*1 <-> is_Some (metadata b !! i)) as Hkeys.
    { intros i. rewrite elem_of_list_fmap. split.
      - intros ([j m] & -> & Hj%elem_of_sorted_list). by eexists.
      - intros [m Hm]. exists (i, m). split; [done|]. by apply elem_of_sorted_list. }
    assert (forall i, is_Some (metadata b !! i) ->
      (is_Some id /\ stray a inv_ bp i -> idx_selected (nodes (ndata b)) (vmuls bp 16) a inv_ id i = Panic) /\
      (~ (is_Some id /\ stray a inv_ bp i) -> exists s, idx_selected (nodes (ndata b)) (vmuls bp 16) a inv_ id i = Ret s)) as Hsel.
    { intros i Hi. apply idx_selected_exact; [done|apply len_nodes|by apply meta_u16]. }
    unfold exact. rewrite <-Hn. split.
    - intros (Hid & i & Hi & Hst).
      match goal with |- context [foldO ?f ?l ?a] => rewrite (foldO_panic f (fun _ => True) l a i); [done|done|by apply Hkeys| |] end.
      + intros l _. by rewrite (proj1 (Hsel i Hi)).
      + intros l j _ _. destruct (idx_selected _ _ _ _ _ j); [right; by eexists|by left].
    - intros Hno. match goal with |- context [foldO ?f ?l ?a] =>
        destruct (foldO_safe f (fun _ => True) l a) as (dl & -> & _); [done| |] end.
      { intros st i Hi%Hkeys _. destruct (proj2 (Hsel i Hi)) as [s ->]; [|by eexists].
        intros [? ?]. apply Hno. split; [done|]. by exists i. }
      cbn [bindO]. case_bool_decide; [apply safe_skip|]. apply safe_write; [done|].
      destruct (wf_storable b Hwf). split; try done. by apply fit_metadata_del with E x.
  Qed.

  Lemma deltimers_exact node a inv_ :
    exact ((exists n, n ∈ o2l node /\ registered n b) /\ exists t, t ∈ timers b /\ stray a inv_ bp (tpos t))
      (deltimers_body E node a inv_ k x).
  Proof using HE Hd Hk.
    destruct key_here as [Hr Hfk]. unfold deltimers_body. rewrite Hd, Hfk. cbv zeta.
    pose proof (node_filter_registered b node) as Hn. destruct (node_filter (nimap b) node) as [id|].
    2:{ split; [by intros [? _]|]. intros _. apply safe_skip. }
    set (f := fun t => idx_selected (nodes (ndata b)) (vmuls bp 16) a inv_ id (tpos t)).
    assert (forall t, t ∈ timers b -> (is_Some id /\ stray a inv_ bp (tpos t) -> f t = Panic) /\
      (~ (is_Some id /\ stray a inv_ bp (tpos t)) -> exists s, f t = Ret s)) as Hsel.
    { intros t Ht. apply idx_selected_exact; [done|apply len_nodes|by apply timer_u16]. }
    unfold exact. rewrite <-Hn. split.
    - intros (Hid & t & Ht & Hst). pose proof (delete_rev_panic f (timers b) t Ht) as Hp.
      unfold f in Hp. rewrite Hp; [done|]. by apply (Hsel t Ht).
    - intros Hno. pose proof (delete_rev_loop f (fun t => says_yes (f t) = true) (timers b)) as Hl.
      unfold f in Hl. rewrite Hl; clear Hl.
      2:{ intros t Ht. destruct (proj2 (Hsel t Ht)) as [s Hs].
          - intros [? ?]. apply Hno. split; [done|]. by exists t.
          - unfold f in Hs. rewrite Hs. f_equal. simpl. by destruct s. }
      cbn [bindO]. destruct (_ =? 0); [apply safe_skip|]. apply safe_write; [done|]. by destruct (wf_storable b Hwf).
  Qed.

  Lemma meta_any (names : list bytes) a inv_ ids : nodes_filter (nimap b) names = Some ids ->
    let F := (exists n, n ∈ names /\ registered n b) /\ exists i, is_Some (metadata b !! i) /\ stray a inv_ bp i in
    (F -> exists e, e ∈ sorted_list (metadata b) /\
       idx_selected_any (nodes (ndata b)) (vmuls bp 16) a inv_ ids e.1 = Panic) /\
    (~ F -> forall i m, metadata b !! i = Some m ->
       exists s, idx_selected_any (nodes (ndata b)) (vmuls bp 16) a inv_ ids i = Ret s).
  Proof using Hd Hk.
    destruct key_here as [Hr Hfk]. intros Hnf. pose proof (nodes_filter_registered b names) as Hn. rewrite Hnf in Hn.
    assert (forall i, is_Some (metadata b !! i) ->
      (ids <> [] /\ stray a inv_ bp i -> idx_selected_any (nodes (ndata b)) (vmuls bp 16) a inv_ ids i = Panic) /\
      (~ (ids <> [] /\ stray a inv_ bp i) -> exists s, idx_selected_any (nodes (ndata b)) (vmuls bp 16) a inv_ ids i = Ret s)) as Hsel.
    { intros i Hi. apply idx_selected_any_exact; [done|apply len_nodes|by apply meta_u16]. }
    cbv zeta. rewrite <-Hn. split.
    - intros (Hid & i & [m Hi] & Hst). exists (i, m). split; [by apply elem_of_sorted_list|].
      apply Hsel; [by eexists|done].
    - intros Hno i m Hi. apply Hsel; [by eexists|]. intros [? ?]. apply Hno. split; [done|].
      exists i. split; [by eexists|done].
  Qed.

  Lemma setvar_exact key value del names a inv_ : fits32 value ->
    exact ((exists n, n ∈ names /\ registered n b) /\ exists i, is_Some (metadata b !! i) /\ stray a inv_ bp i)
      (setvar_body E key value del names a inv_ k x).
  Proof using HE Hd Hk.
    intros Hv. destruct key_here as [Hr Hfk]. unfold setvar_body. rewrite Hd, Hfk. cbv zeta.
    pose proof (nodes_filter_registered b names) as Hn. destruct (nodes_filter (nimap b) names) as [ids|] eqn:Enf.
    2:{ split; [by intros [? _]|]. intros _. apply safe_skip. }
    destruct (meta_any names a inv_ ids Enf) as [H1 H2]. split.
    - intros HF. destruct (H1 HF) as (e & He & Hp).
      match goal with |- context [foldO ?f ?l ?a] => rewrite (foldO_panic f (fun _ => True) l a e); [done|done|done| |] end.
      + intros st _. by rewrite Hp.
      + intros st j _ _. destruct (idx_selected_any _ _ _ _ _ j.1); [right; by eexists|by left].
    - intros HF. specialize (H2 HF). match goal with |- context [foldO ?f ?l ?a] =>
        destruct (foldO_safe f (fun st => fit_metadata st.1) l a) as ([md n] & -> & Hmd);
          [apply (wf_storable b Hwf)| |] end.
      { intros [md n] [i m] Hi%elem_of_sorted_list Hmd. destruct (H2 i m Hi) as [s Hs].
        cbn [fst snd] in *. rewrite Hs. cbn [bindO]. eexists. split; [done|]. destruct s; [|done].
        pose proof (st_md b (wf_storable b Hwf) i m Hi) as Hm. unfold set_var.
        destruct (vars m !! key) as [v|] eqn:Ev; [|done]. cbn [fst]. apply map_Forall_insert_2; [|done].
        unfold fit_meta. cbn [vars]. destruct del; [by apply map_Forall_delete|].
        apply map_Forall_insert_2; [|done]. split; [by apply (Hm key v)|done]. }
      cbn [bindO fst snd] in *. destruct (_ =? 0); [apply safe_skip|]. apply safe_write; [done|].
      by destruct (wf_storable b Hwf).
  Qed.
  Lemma replinv_exact item new dm names a inv_ :
    exact ((exists n, n ∈ names /\ registered n b) /\ exists i, is_Some (metadata b !! i) /\ stray a inv_ bp i)
      (replinv_body E item new dm names a inv_ k x).
  Proof using HE Hd Hk.
    destruct key_here as [Hr Hfk]. unfold replinv_body. rewrite Hd, Hfk. cbv zeta.
    pose proof (nodes_filter_registered b names) as Hn. destruct (nodes_filter (nimap b) names) as [ids|] eqn:Enf.
    2:{ split; [by intros [? _]|]. intros _. apply safe_skip. }
    destruct (meta_any names a inv_ ids Enf) as [H1 H2]. split.
    - intros HF. destruct (H1 HF) as (e & He & Hp).
      match goal with |- context [foldO ?f ?l ?a] => rewrite (foldO_panic f (fun _ => True) l a e); [done|done|done| |] end.
      + intros st _. by rewrite Hp.
      + intros st j _ _. destruct (idx_selected_any _ _ _ _ _ j.1); [right; by eexists|by left].
    - intros HF. specialize (H2 HF). match goal with |- context [foldO ?f ?l ?a] =>
        destruct (foldO_safe f (fun st => fit_metadata st.1) l a) as ([md [items n]] & -> & Hmd);
          [apply (wf_storable b Hwf)| |] end.
      { intros [md [items n]] [i m] Hi%elem_of_sorted_list Hmd. destruct (H2 i m Hi) as [s Hs].
        cbn [fst snd] in *. rewrite Hs. cbn [bindO]. eexists. split; [done|]. destruct s; [|done].
        pose proof (st_md b (wf_storable b Hwf) i m Hi) as Hm.
        destruct (do_replace_inv _ _ _ _) as [iv mods]. cbn [fst]. by apply map_Forall_insert_2. }
      cbn [bindO fst snd] in *. destruct (_ =? 0); [apply safe_skip|]. apply safe_write; [done|].
      by destruct (wf_storable b Hwf).
  Qed.
End Exact.

(** ** fill *)

Lemma clean_panic b mx : get_max_id (nimap b) = Some mx -> 0 <= mx < 65536 ->
  Z.of_nat (length (nodes (ndata b))) = 4096 -> (mx = 65535 \/ exists id, id ∈ nodes (ndata b) /\ mx < id) ->
  clean_name_id_map b = Panic.
Proof.
  intros Emx Hmx Hl Hbad. unfold clean_name_id_map. rewrite Emx. cbn [unwrap bindO].
  set (n := Z.to_nat (w16 (mx + 1))).
  assert (exists id, id ∈ nodes (ndata b) /\ Z.of_nat n <= id \/ id ∈ nodes (ndata b) /\ id < 0) as (id & Hid).
  { destruct Hbad as [->|(id & Hid & Hlt)].
    - destruct (lookup_4096 (nodes (ndata b)) 0 Hl ltac:(lia)) as [y Hy]. apply elem_of_list_lookup_2 in Hy.
      exists y. change n with 0%nat. destruct (decide (0 <= y)); [left|right]; (split; [done|lia]).
    - exists id. left. split; [done|]. unfold n. unfold w16. pose proof (Z.mod_le (mx + 1) 65536). 
      pose proof (Z.mod_pos_bound (mx + 1) 65536). lia. }
  match goal with |- context [foldO ?f ?l ?a] => rewrite (foldO_panic f (fun u => length u = n) l a id); [done| | | |] end.
  - by rewrite replicate_length.
  - by destruct Hid as [[? _]|[? _]].
  - intros u Hu. unfold vset. rewrite Hu. replace ((_ <? _) || _) with true; [done|]. lia.
  - intros u y _ Hu. unfold vset. destruct (_ || _); [by left|]. right. eexists. split; [done|]. by rewrite insert_length.
Qed.

Lemma partly_unselected a inv bp : key_range bp -> nonempty a -> area_within 100000 a ->
  visit (Some a) inv true bp -> partly a bp = true ->
  exists i, 0 <= i < 4096 /\ ~ selected (Some a) inv (abs_pos bp i).
Proof.
  intros Hr Hne Ha Hv Hp.
  destruct (decide (Forall (fun i => selected (Some a) inv (abs_pos bp i)) (seqZ 0 4096))) as [Hall|Hn].
  - exfalso. rewrite Forall_forall in Hall.
    assert (forall q, node_in_block bp q -> selected (Some a) inv q) as Hsel.
    { intros q Hq. assert (in_cube (minus q (block_corner bp))) as Hc.
      { unfold node_in_block in Hq. unfold in_cube, minus, block_corner; simpl. lia. }
      specialize (Hall (pos_idx (minus q (block_corner bp)))). rewrite elem_of_seqZ in Hall.
      pose proof (pos_idx_range _ Hc). specialize (Hall ltac:(lia)). unfold abs_pos in Hall.
      rewrite idx_pos_idx in Hall by done.
      replace (plus (block_corner bp) (minus q (block_corner bp))) with q in Hall; [done|].
      destruct q; unfold plus, minus, block_corner; simpl; f_equal; lia. }
    pose proof (contains_block_iff a bp (key_range_within bp Hr)) as Hc.
    pose proof (touches_block_iff a bp (key_range_within bp Hr) Hne) as Ht.
    unfold partly in Hp. destruct (contains_block a bp) eqn:Ec, (touches_block a bp) eqn:Et; simpl in Hp; try done.
    + assert (false = true); [|done]. apply Ht. exists (block_corner bp).
      assert (node_in_block bp (block_corner bp)) by (unfold node_in_block, block_corner; simpl; lia).
      split; [done|]. by apply Hc.
    + destruct inv.
      * destruct (proj1 Ht eq_refl) as (q & Hq & Hi). by apply (Hsel q Hq).
      * assert (false = true); [|done]. apply Hc. exact Hsel.
  - apply not_Forall_Exists in Hn; [|apply _]. apply Exists_exists in Hn as (i & Hi%elem_of_seqZ & Hs).
    exists i. split; [lia|done].
Qed.

Lemma fill_exact E k bp x b a inv_ node : ext_ok E -> block_at k bp -> deserialize E x = Ok b ->
  area_ok (Some a) -> visit (Some a) inv_ true bp -> fits16 node ->
  exact (fill_fatal (Some a) inv_ node bp b) (fill_body E a inv_ node k x).
Proof.
  intros HE Hk Hd [Hne Ha] Hv Hnode. pose proof (is_wf E x b Hd) as Hb.
  pose proof (wf_storable b Hb) as Hst. pose proof (wf_lens b Hb) as (Hl1 & _).
  destruct (block_at_key k bp Hk) as [Hr Hfk]. unfold fill_body. rewrite Hfk, Hd. cbv zeta.
  pose proof (partly_spec a inv_ bp Hr Hne Ha Hv) as Hp. destruct (partly a bp) eqn:Epart.
  2:{ split.
      - intros [(i & Hi & Hns) _]. by apply Hp in Hi.
      - intros _. apply safe_write; [done|]. apply (storable_nodes E x b Hd); [by rewrite fmap_length|].
        by apply map_Forall_singleton. }
  pose proof (partly_unselected a inv_ bp Hr Hne Ha Hv Epart) as Huns. clear Epart.
  destruct Hp as (part & -> & Hbox & Hin). cbn [unwrap bindO].
  destruct (box_indices part inv_ bp a Hbox Hin) as (l & El & Hnd & Hl).
  assert (forall id, exists ns, fill_area (nodes (ndata b)) id part inv_ = Ret ns /\ length ns = length (nodes (ndata b)) /\
    forall i, 0 <= i < 4096 -> ns !! Z.to_nat i = if decide (selected (Some a) inv_ (abs_pos bp i)) then Some id
      else nodes (ndata b) !! Z.to_nat i) as Hfill.
  { intros id. unfold fill_area. rewrite El. cbn [bindO].
    destruct (fill_loop (nodes (ndata b)) id l) as (ns & -> & Hlen & Hns).
    { intros i Hi%Hl. rewrite Hl1. by destruct Hi. }
    exists ns. split; [done|]. split; [done|]. intros i Hi. rewrite Hns by lia.
    apply decide_ext. rewrite Hl. tauto. }
  clear El Hl Hnd Hin Hbox.
  assert (forall y, y ∈ nodes (ndata b) -> 0 <= y < 65536) as Hnu.
  { intros y Hy. destruct (wf_nd b Hb) as (_ & _ & _ & Hu). rewrite Forall_forall in Hu. exact (Hu y Hy). }
  assert (forall i, is_Some (nimap b !! i) -> 0 <= i < 65536) as Hmu.
  { intros i [n Hi]. apply (proj2 (wf_nm b Hb)) in Hi as [Hi _]. exact Hi. }
  destruct (get_max_id (nimap b)) as [mx|] eqn:Emx.
  2:{ apply max_key_None in Emx. split.
      - intros _. destruct (get_id (nimap b) node) as [id|] eqn:Eg; [|done].
        apply get_id_Some in Eg as [Hid _]. by rewrite Emx in Hid.
      - intros []. split; [done|]. by left. }
  pose proof (proj1 (max_key_Some _ _) Emx) as [Hmx Hmax]. pose proof (Hmu mx Hmx) as Hmr.
  assert (nimap b <> ∅) as Hnemp. { intros He. rewrite He in Hmx. by destruct Hmx. }
  (* the name table with the new node, and its largest ID *)
  assert (forall id nm mx', (mx' <= 65534 -> wf_nimap nm) -> get_max_id nm = Some mx' -> 0 <= id <= mx' -> mx' <= 65535 ->
    let o := (let* ns := fill_area (nodes (ndata b)) id part inv_ in
      let* b' := clean_name_id_map (set_nimap (set_nodes b ns) nm) in write_block E b' (volume part, 0)) in
    let F := mx' = 65535 \/ exists i y, 0 <= i < 4096 /\ ~ selected (Some a) inv_ (abs_pos bp i) /\
      nodes (ndata b) !! Z.to_nat i = Some y /\ mx' < y in exact F o) as Hrest.
  { intros id nm mx' Hwf Emx' Hid Hle. cbv zeta. destruct (Hfill id) as (ns & -> & Hlen & Hns). cbn [bindO].
    assert (Z.of_nat (length ns) = 4096) as Hlen' by (by rewrite Hlen).
    assert (forall y, y ∈ ns -> exists i, 0 <= i < 4096 /\ ns !! Z.to_nat i = Some y) as Hidx.
    { intros y [i Hy]%elem_of_list_lookup. exists (Z.of_nat i). rewrite Nat2Z.id. split; [|done].
      apply lookup_lt_Some in Hy. lia. }
    split.
    - intros HF. rewrite (clean_panic (set_nimap (set_nodes b ns) nm) mx'); [done|done|lia|done|].
      destruct HF as [->|(i & y & Hi & Hs & Hy & Hlt)]; [by left|]. right. exists y. split; [|done].
      cbn. specialize (Hns i Hi). rewrite decide_False in Hns by done. rewrite Hy in Hns.
      by eapply elem_of_list_lookup_2.
    - intros HF.
      assert (mx' <= 65534) as Hle'. { destruct (decide (mx' = 65535)); [|lia]. destruct HF. by left. }
      specialize (Hwf Hle').
      assert (Forall (fun y => 0 <= y <= mx') ns) as Hall.
      { apply Forall_forall. intros y (i & Hi & Hy)%Hidx. rewrite Hns in Hy by done. case_decide as Hs; [by inv Hy|].
        assert (~ mx' < y). { intros Hlt. apply HF. right. by exists i, y. }
        apply elem_of_list_lookup_2, Hnu in Hy. lia. }
      assert (wf_block (set_nimap (set_nodes b ns) nm)) as Hwb.
      { change (set_nimap (set_nodes b ns) nm) with (with_nodes b (ND ns (param1 (ndata b)) (param2 (ndata b))) nm).
        destruct (wf_nd b Hb) as (H1 & H2 & H3 & _). apply wf_with_nodes; [done| |done].
        split; [cbn [nodes]; by rewrite Hlen|]. split; [done|]. split; [done|].
        eapply Forall_impl; [exact Hall|]. unfold u16_ok. simpl. lia. }
      destruct (clean_safe (set_nimap (set_nodes b ns) nm) mx') as (ns' & nm' & -> & Hlen2 & Hnm'); [done|lia|done|done|].
      cbn [bindO]. apply safe_write; [done|]. cbn in Hlen2. destruct Hst as [H1 H2 H3 H4 H5]. split; try done.
      cbn. by rewrite Hlen2, Hlen. }
  assert (forall F F' o, exact F o -> (F <-> F') -> exact F' o) as Hiff.
  { intros F F' o [H1 H2] HF. split; intros H; [apply H1|apply H2]; tauto. }
  destruct (get_id (nimap b) node) as [id|] eqn:Eg; cbn [bindO].
  - assert (registered node b) as Hreg by (apply registered_id; by rewrite Eg).
    apply get_id_Some in Eg as [Hid _]. eapply Hiff; [apply (Hrest id (nimap b) mx)|].
    + intros _. apply (wf_nm b Hb).
    + done.
    + split; [apply (Hmu id); by eexists|]. apply Hmax. by eexists.
    + lia.
    + unfold fill_fatal. split.
      * intros HF. split; [done|]. destruct HF as [->|(i & y & Hi & Hs & Hy & Hlt)]; [right; by left|].
        do 3 right. exists i, y. repeat (split; [done|]). intros id' Hid'. apply Hmax in Hid'. split; [lia|]. by intros [].
      * intros [_ [?|[H|[[_ ?]|(i & y & Hi & Hs & Hy & Hlt)]]]]; [done| |done|].
        -- left. apply Hmax in H. lia.
        -- right. exists i, y. repeat (split; [done|]). by apply Hlt.
  - assert (~ registered node b) as Hreg. { intros Hr'%registered_id. rewrite Eg in Hr'. by destruct Hr'. }
    unfold fill_fatal. cbn [unwrap bindO]. destruct (decide (mx = 65535)) as [->|Hne1].
    + (* the new ID wraps to 0 *)
      change (w16 (65535 + 1)) with 0. split.
      * intros _. destruct (Hfill 0) as (ns & -> & Hlen & _). cbn [bindO].
        rewrite (clean_panic (set_nimap (set_nodes b ns) (<[0:=node]> (nimap b))) 65535); [done| |lia| |by left].
        -- apply max_key_Some. cbn. rewrite lookup_insert_ne by done. split; [done|].
           intros j Hj. destruct (decide (j = 0)) as [->|Hn]; [lia|]. rewrite lookup_insert_ne in Hj by done.
           apply Hmu in Hj. lia.
        -- cbn. by rewrite Hlen.
      * intros HF. destruct HF. split; [done|]. right. by left.
    + rewrite w16_id by (unfold u16_ok; lia). eapply Hiff; [apply (Hrest (mx + 1) (<[mx + 1 := node]> (nimap b)) (mx + 1))|].
      * intros Hle. assert (ids_upto 65534 (<[mx + 1 := node]> (nimap b))) as Hup'.
        { apply map_Forall_insert_2; [lia|]. intros i n Hi. specialize (Hmax i ltac:(by eexists)).
          specialize (Hmu i ltac:(by eexists)). lia. }
        split.
        -- pose proof (nimap_size_upto (<[mx + 1 := node]> (nimap b)) 65534 ltac:(lia) Hup'). lia.
        -- apply map_Forall_insert_2; [split; [unfold u16_ok; lia|done]|apply (wf_nm b Hb)].
      * apply max_key_Some. rewrite lookup_insert. split; [by eexists|].
        intros j Hj. destruct (decide (j = mx + 1)) as [->|Hn]; [lia|]. rewrite lookup_insert_ne in Hj by done.
        apply Hmax in Hj. lia.
      * lia.
      * lia.
      * split.
        -- intros HF. split; [done|]. destruct HF as [Heq|(i & y & Hi & Hs & Hy & Hlt)].
           ++ right. right. left. split; [|done]. by replace 65534 with mx by lia.
           ++ do 3 right. exists i, y. repeat (split; [done|]). intros id' Hid'. apply Hmax in Hid'. lia.
        -- intros [_ [?|[H|[[H _]|(i & y & Hi & Hs & Hy & Hlt)]]]]; [done| | |].
           ++ apply Hmax in H. lia.
           ++ apply Hmax in H. left. lia.
           ++ right. exists i, y. repeat (split; [done|]). by apply Hlt.
Qed.
