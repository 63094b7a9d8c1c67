(** Proofs about in-place commands node by node *)
From Verif Require Import CodecProofs BlockProofs UtilsProofs QueryProofs ThreadProofs BodyProofs EditProofs NodeProofs MetaProofs
  ObjProofs InvProofs WholeProofs MixProofs ToyRun CmdFacts SpecNodes
  KeepProofs OrderProofs AgainProofs ArgProofs SpecGone SpecLocal Spec.

(** ** Blocks *)
Lemma meta_norm b : meta_in b -> meta_in (norm b).
Proof. intros Hm i m (m0 & Hm0 & _)%norm_entry. by eapply Hm. Qed.

Lemma shell_norm b : shell (norm b) = shell b.
Proof. unfold shell. by rewrite norm_idem. Qed.

Lemma acted_nodes_only g del bp b b' : acmd g <> CDeleteTimers -> (forall o, o ∈ objects b -> del bp o = false) ->
  same_but_nodes b b' ->
  (forall i, 0 <= i < 4096 ->
    state b' i = if decide (hit g (abs_pos bp i) (state b i)) then act g (state b i) else state b i) ->
  acted g del bp b b'.
Proof.
  intros Ht Hdel HS HN. unfold same_but_nodes in HS. split; [done|..].
  - rewrite filter_all; [exact (f_equal timers HS)|]. intros t _. unfold stays. by destruct (acmd g).
  - rewrite filter_all; [exact (f_equal objects HS)|done].
  - rewrite HS. apply meta_norm.
  - rewrite <-(shell_norm b'), HS. by apply (shell_norm b).
Qed.

Lemma renamed_acted g del bp d P {HP : forall i, Decision (P i)} node b b' :
  acmd g = CFill \/ acmd g = CReplaceNodes -> (forall o, o ∈ objects b -> del bp o = false) -> new_node g = Some node ->
  (forall i, P i <-> hit g (abs_pos bp i) (state b i)) -> renamed d P node b b' -> acted g del bp b b'.
Proof.
  intros Hc Hdel Hn HPh (HS & _ & _ & E1 & E2 & HN). apply acted_nodes_only; [by destruct Hc as [-> | ->]|done..|].
  intros i Hi. unfold state at 1. assert (metadata (norm b') = metadata (norm b)) as -> by exact (f_equal metadata HS).
  unfold node_param1, node_param2. rewrite (HN i Hi), E1, E2.
  assert (act g (state b i) = with_name (Some node) (state b i)) as -> by (unfold act; destruct Hc as [-> | ->]; by rewrite Hn).
  specialize (HPh i). case_decide; case_decide; tauto || done.
Qed.
Lemma repainted_acted g del bp P {HP : forall i, Decision (P i)} v b b' :
  acmd g = CSetParam2 -> (forall o, o ∈ objects b -> del bp o = false) -> aparam2 g = Some v ->
  (forall i, P i <-> hit g (abs_pos bp i) (state b i)) -> repainted P v b b' -> acted g del bp b b'.
Proof.
  intros Hc Hdel Hn HPh (HS & D1 & D2 & HN).
  assert (nimap b' = nimap b) as Em by exact (f_equal nimap HS).
  apply acted_nodes_only; [by rewrite Hc|done| |].
  { unfold same_but_nodes. by rewrite Em. }
  intros i Hi. unfold state at 1. assert (metadata (norm b') = metadata (norm b)) as -> by exact (f_equal metadata HS).
  unfold node_param1, node_name. rewrite (HN i Hi), D1, D2, Em. unfold act. rewrite Hc, Hn.
  specialize (HPh i). case_decide; case_decide; tauto || done.
Qed.

Lemma norm_not_blank b i m : metadata (norm b) !! i = Some m -> ~ blank m.
Proof.
  intros Hm Hb. pose proof (f_equal metadata (norm_idem b)) as Hi. rewrite <-Hi in Hm.
  change (metadata (norm (norm b))) with (norm_metadata (version (norm b)) (metadata (norm b))) in Hm.
  unfold norm_metadata in Hm. destruct (28 <=? _) eqn:Ev.
  - unfold id in Hm. by apply map_filter_lookup_Some in Hm as [_ ?].
  - rewrite lookup_fmap in Hm.
    destruct (filter _ _ !! i) as [m0|] eqn:E0; [|done]. injection Hm as <-. apply map_filter_lookup_Some in E0 as [_ H].
    apply H. simpl. unfold blank in *. destruct Hb as [Hv Hin]. split; [|done]. simpl in Hv. by apply fmap_empty_inv in Hv.
Qed.

Lemma changed_acted g del bp upd b b' :
  acmd g <> CDeleteTimers -> (forall o, o ∈ objects b -> del bp o = false) ->
  (forall i m, metadata (norm b) !! i = Some m ->
    (hit g (abs_pos bp i) (state b i) ->
       act g (state b i) = with_meta (fun m => upd i m ≫= stored) (state b i)) /\
    (~ hit g (abs_pos bp i) (state b i) -> upd i m = Some m)) ->
  (forall s, st_meta s = None -> act g s = s) ->
  metadata_changed upd b b' -> acted g del bp b b'.
Proof.
  intros Ht Hdel Hup Hnone HC. destruct (metadata_parts _ _ _ HC) as (Ed & Em & HM). destruct HC as (md & HS & _).
  assert (forall i, node_name b' i = node_name b i /\ node_param1 b' i = node_param1 b i /\ node_param2 b' i = node_param2 b i) as Hn.
  { intros i. unfold node_name, node_param1, node_param2. by rewrite Ed, Em. }
  split.
  - intros i Hi. destruct (Hn i) as (N1 & N2 & N3). unfold state at 1. rewrite N1, N2, N3, HM.
    specialize (Hup i). destruct (metadata (norm b) !! i) as [m|] eqn:E0.
    + destruct (Hup m eq_refl) as [H1 H2]. case_decide as Hh.
      * rewrite H1 by done. unfold with_meta, state. cbn [st_name st_param1 st_param2 st_meta]. rewrite E0. done.
      * cbn [mbind option_bind]. rewrite H2 by done. cbn [mbind option_bind]. unfold state. rewrite E0. f_equal. rewrite decide_False; [done|]. by eapply norm_not_blank.
    + assert (NodeState (node_name b i) (node_param1 b i) (node_param2 b i) (None ≫= (fun m => upd i m ≫= stored)) = state b i) as Hs.
      { unfold state. by rewrite E0. }
      fold stored in *. case_decide as Hh; [|exact Hs]. rewrite Hnone; [exact Hs|]. exact E0.
  - rewrite filter_all; [exact (f_equal timers HS)|]. intros t _. unfold stays. by destruct (acmd g).
  - rewrite filter_all; [exact (f_equal objects HS)|done].
  - intros Hmi i m Hm. rewrite HM in Hm. destruct (metadata (norm b) !! i) as [m0|] eqn:E0; [|done].
    by apply (meta_norm b Hmi) in E0.
  - rewrite <-(shell_norm b'), HS. by apply (shell_norm b).
Qed.

Lemma acted_alike g1 g2 d1 d2 bp1 bp2 c1 c2 b1 b2 : acted g1 d1 bp1 c1 b1 -> acted g2 d2 bp2 c2 b2 ->
  meta_in c1 -> meta_in c2 -> shell b1 = shell b2 -> timers b1 = timers b2 -> objects b1 = objects b2 ->
  (forall i, 0 <= i < 4096 -> state b1 i = state b2 i) -> alike b1 b2.
Proof.
  intros A1 A2 M1%(acted_meta _ _ _ _ _ A1) M2%(acted_meta _ _ _ _ _ A2) Hs Ht Ho HN.
  assert (metadata (norm b1) = metadata (norm b2)) as Hm.
  { apply map_eq. intros i. destruct (decide (0 <= i < 4096)) as [Hi|Hi]; [exact (f_equal st_meta (HN i Hi))|].
    destruct (metadata (norm b1) !! i) as [m|] eqn:E1; [by destruct Hi; eapply M1|].
    destruct (metadata (norm b2) !! i) as [m|] eqn:E2; [by destruct Hi; eapply M2|]. done. }
  unfold shell in Hs. apply pair_equal_spec in Hs as [Hs H6]. apply pair_equal_spec in Hs as [Hs H5]. apply pair_equal_spec in Hs as [Hs H4].
  apply pair_equal_spec in Hs as [Hs H3]. apply pair_equal_spec in Hs as [H1 H2]. split.
  - unfold same_but_nodes.
    transitivity (Block (version b2) (flags b2) (lighting (norm b2)) (content_width b2) (params_width b2) (ndata b2)
      (metadata (norm b2)) (objects b2) (timestamp b2) (nimap b2) (timers b2)); [done|].
    rewrite <-H1, <-H2, <-H3, <-H4, <-H5, <-H6, <-Hm, <-Ht, <-Ho. done.
  - intros i Hi. specialize (HN i Hi). unfold state in HN. by injection HN.
Qed.

(** Two commands on areas without common nodes. *)
Lemma acted_name g del bp b b' i : acted g del bp b b' -> 0 <= i < 4096 ->
  ~ selected (aarea g) (invert g) (abs_pos bp i) -> state b' i = state b i.
Proof. intros A Hi Hn. rewrite (acted_nodes _ _ _ _ _ A i Hi). rewrite decide_False; [done|]. by intros [? _]. Qed.

Lemma stays_apart g1 g2 d2 bp b b2 t : disjoint_areas g1 g2 -> acted g2 d2 bp b b2 -> 0 <= tpos t < 4096 ->
  stays g1 bp b2 t <-> stays g1 bp b t.
Proof.
  intros Hdis A Ht. unfold stays. destruct (acmd g1); try done.
  destruct (decide (selected (aarea g1) (invert g1) (abs_pos bp (tpos t)))) as [Hs|Hs].
  - by rewrite (acted_name _ _ _ _ _ _ A Ht) by (by apply Hdis).
  - split; intros _ [? _]; done.
Qed.
Lemma commute_alike g1 g2 d1 d2 bp b b1 b12 b2 b21 : disjoint_areas g1 g2 -> meta_in b -> timers_in b ->
  acted g1 d1 bp b b1 -> acted g2 d2 bp b1 b12 -> acted g2 d2 bp b b2 -> acted g1 d1 bp b2 b21 ->
  meta_in b1 -> meta_in b2 -> alike b12 b21.
Proof.
  intros Hdis Hm Ht A1 A12 A2 A21 M1 M2.
  assert (disjoint_areas g2 g1) as Hdis2 by (intros p H2 H1; by eapply Hdis).
  eapply (acted_alike g2 g1); [exact A12|exact A21|done|done|..].
  - rewrite (acted_shell _ _ _ _ _ A12), (acted_shell _ _ _ _ _ A1), (acted_shell _ _ _ _ _ A21). by rewrite (acted_shell _ _ _ _ _ A2).
  - rewrite (acted_timers _ _ _ _ _ A12), (acted_timers _ _ _ _ _ A1), (acted_timers _ _ _ _ _ A21), (acted_timers _ _ _ _ _ A2).
    rewrite !list_filter_filter. apply NodeProofs.filter_ext_in. intros t Htm.
    assert (0 <= tpos t < 4096) as Hr by (unfold timers_in in Ht; rewrite Forall_forall in Ht; by apply Ht).
    rewrite (stays_apart g2 g1 d1 bp b b1), (stays_apart g1 g2 d2 bp b b2) by done. tauto.
  - rewrite (acted_objects _ _ _ _ _ A12), (acted_objects _ _ _ _ _ A1), (acted_objects _ _ _ _ _ A21), (acted_objects _ _ _ _ _ A2).
    rewrite !list_filter_filter. apply NodeProofs.filter_ext_in. intros o _. tauto.
  - intros i Hi.
    destruct (decide (selected (aarea g1) (invert g1) (abs_pos bp i))) as [Hs|Hs].
    + rewrite (acted_name _ _ _ _ _ _ A12 Hi) by (by apply Hdis).
      rewrite (acted_nodes _ _ _ _ _ A1 i Hi), (acted_nodes _ _ _ _ _ A21 i Hi).
      by rewrite (acted_name _ _ _ _ _ _ A2 Hi) by (by apply Hdis).
    + rewrite (acted_name _ _ _ _ _ _ A21 Hi) by done.
      rewrite (acted_nodes _ _ _ _ _ A12 i Hi), (acted_nodes _ _ _ _ _ A2 i Hi).
      by rewrite (acted_name _ _ _ _ _ _ A1 Hi) by done.
Qed.

(** One command on two areas instead of one. *)
Lemma act_again g s : supplied g -> legal g -> act g (act g s) = act g s.
Proof.
  intros [_ Hsup] (_ & _ & _ & Hnm & Hleg). unfold act. destruct (acmd g) eqn:Hc; try done.
  - unfold with_meta. cbn [st_name st_param1 st_param2 st_meta]. by destruct (st_meta s).
  - destruct Hsup as [item Ei]. rewrite Ei. cbn [default]. cbv zeta.
    rewrite Forall_forall in Hnm. unfold all_names in Hnm.
    assert (name_ok item) as Hio by (apply Hnm; rewrite Ei; cbn; set_solver).
    set (new := if adelete g then None else Some (default item (new_item g))).
    assert (forall m, new = Some m -> name_ok m) as Hnew.
    { intros m. unfold new. destruct (adelete g); [done|]. intros [= <-].
      destruct (new_item g) as [m|]; cbn [default]; [|done]. apply Hnm. cbn. set_solver. }
    unfold with_meta. cbn [st_name st_param1 st_param2 st_meta]. f_equal.
    destruct (st_meta s) as [m|]; [|done]. cbn [mbind option_bind]. unfold stored at 2 3. case_decide as Hb; [done|].
    cbn [mbind option_bind vars inv]. rewrite rewrite_inv_again; [|by apply name_ok_chars in Hio as (_ & ? & _)|].
    + unfold stored. by rewrite decide_False.
    + intros n Hn%Hnew. by apply name_ok_chars in Hn as (_ & ? & ?).
  - unfold with_meta. cbn [st_name st_param1 st_param2 st_meta]. f_equal.
    destruct (st_meta s) as [m|]; [|done]. cbn [mbind option_bind]. unfold stored at 2 3. case_decide as Hb; [done|].
    cbn [mbind option_bind]. rewrite change_var_again. unfold stored. by rewrite decide_False.
Qed.
Lemma split_alike g a1 i1 a2 i2 d d1 d2 bp b b' b1 b12 :
  let g1 := on_area a1 i1 g in let g2 := on_area a2 i2 g in
  supplied g -> legal g -> meta_in b -> timers_in b -> meta_in b1 ->
  (forall p, selected (aarea g) (invert g) p <-> selected a1 i1 p \/ selected a2 i2 p) ->
  (forall o, o ∈ objects b -> d bp o = true <-> d1 bp o = true \/ d2 bp o = true) ->
  acted g d bp b b' -> acted g1 d1 bp b b1 -> acted g2 d2 bp b1 b12 -> alike b' b12.
Proof.
  intros g1 g2 Hsup Hleg Hm Ht Hm1 Hsel Hd A A1 A12.
  assert (forall p s, hit g p s <-> hit g1 p s \/ hit g2 p s) as Hhit.
  { intros p s. unfold hit. change (searched g1) with (searched g). change (searched g2) with (searched g).
    cbn [aarea invert on_area g1 g2]. rewrite Hsel. tauto. }
  assert (acmd g = CDeleteTimers -> forall i, 0 <= i < 4096 -> state b1 i = state b i) as Hsame.
  { intros Et i Hi. rewrite (acted_nodes _ _ _ _ _ A1 i Hi). unfold act. cbn [acmd on_area g1]. rewrite Et. by case_decide. }
  eapply acted_alike; [exact A|exact A12|done|done|..].
  - by rewrite (acted_shell _ _ _ _ _ A12), (acted_shell _ _ _ _ _ A1), (acted_shell _ _ _ _ _ A).
  - rewrite (acted_timers _ _ _ _ _ A12), (acted_timers _ _ _ _ _ A1), (acted_timers _ _ _ _ _ A).
    rewrite list_filter_filter. apply NodeProofs.filter_ext_in. intros t Htm.
    assert (0 <= tpos t < 4096) as Hr by (unfold timers_in in Ht; rewrite Forall_forall in Ht; by apply Ht).
    unfold stays. change (acmd g1) with (acmd g). change (acmd g2) with (acmd g). destruct (acmd g); try tauto.
    rewrite Hsame by done. rewrite Hhit. tauto.
  - rewrite (acted_objects _ _ _ _ _ A12), (acted_objects _ _ _ _ _ A1), (acted_objects _ _ _ _ _ A).
    rewrite list_filter_filter. apply NodeProofs.filter_ext_in. intros o Hob. specialize (Hd o Hob). rewrite <-!not_true_iff_false. tauto.
  - intros i Hi. rewrite (acted_nodes _ _ _ _ _ A i Hi), (acted_nodes _ _ _ _ _ A12 i Hi).
    rewrite (acted_nodes _ _ _ _ _ A1 i Hi). set (p := abs_pos bp i). set (s := state b i).
    change (act g1 s) with (act g s). change (act g2) with (act g).
    destruct (decide (hit g1 p s)) as [H1|H1].
    + rewrite decide_True by (apply Hhit; by left). case_decide; [|done]. by rewrite act_again.
    + specialize (Hhit p s). case_decide; case_decide; tauto || done.
Qed.

(** ** Runs *)
Lemma effect_each E main main' u R (R' : vec3 -> block -> block -> Prop) : effect E main main' u R ->
  (forall k bp x b b', block_at k bp -> main !! k = Some x -> deserialize E x = Ok b -> R bp b b' -> R' bp b b') ->
  each_block E main main' R'.
Proof.
  intros [Hno He] HR. split; [done|]. intros k bp x Hbp Hx. destruct (He k bp x Hbp Hx) as (y & Hy & H).
  exists y. split; [done|]. destruct (deserialize E x) as [b|] eqn:Ed; [|done].
  destruct H as (_ & b' & Hd & _ & Hr). exists b'. split; [done|]. by eapply HR.
Qed.

(** Which objects are deleted, by any command. *)
Definition adel (g : args) (bp : vec3) (o : static_object) : bool :=
  match acmd g with CDeleteObjects => cdel g bp o | _ => false end.
Lemma adel_iff g bp o : wf_object o -> (is_Some (aarea g) -> in_reach o) -> adel g bp o = true <->
  acmd g = CDeleteObjects /\ object_chosen (aarea g) (invert g) (wanted_object g) (default [] (aitems g)) bp o.
Proof.
  intros Hwf Hr. unfold adel. rewrite <-(cdel_iff g bp o Hwf Hr). destruct (acmd g); split; try done; try tauto;
    by intros [? _].
Qed.
Lemma adel_none g : acmd g <> CDeleteObjects -> forall bp o, adel g bp o = false.
Proof. intros Hc bp o. unfold adel. by destruct (acmd g). Qed.

(** Where an object is decides, if it is stored there. *)
Lemma adel_home g bp o : wf_object o -> in_reach o -> home bp o -> adel g bp o = true <-> acmd g = CDeleteObjects /\ wanted g o.
Proof.
  intros Hwf Hr (p & Hp1 & Hp2). rewrite adel_iff by done. unfold object_chosen, wanted.
  split; [tauto|]. intros (Hc & (p' & Hp1' & Hs) & Hn). split; [done|]. split; [|split; [by exists p'|done]].
  apply nearest_iff in Hp1, Hp1'. subst p p'. by eexists.
Qed.
Lemma wanted_split g a1 i1 a2 i2 o :
  (forall p, selected (aarea g) (invert g) p <-> selected a1 i1 p \/ selected a2 i2 p) ->
  wanted g o <-> wanted (on_area a1 i1 g) o \/ wanted (on_area a2 i2 g) o.
Proof.
  intros Hsel. unfold wanted. cbn [aarea invert on_area].
  change (wanted_object (on_area a1 i1 g)) with (wanted_object g). change (wanted_object (on_area a2 i2 g)) with (wanted_object g).
  change (aitems (on_area a1 i1 g)) with (aitems g). change (aitems (on_area a2 i2 g)) with (aitems g).
  assert ((exists p, nearest o p /\ selected (aarea g) (invert g) p) <->
    (exists p, nearest o p /\ selected a1 i1 p) \/ (exists p, nearest o p /\ selected a2 i2 p)) as H.
  { split.
    - intros (p & Hp & [Hs|Hs]%Hsel); [left|right]; by exists p.
    - intros [(p & Hp & Hs)|(p & Hp & Hs)]; exists p; (split; [done|]); apply Hsel; tauto. }
  rewrite H. tauto.
Qed.

Lemma hit_chosen g bp b i : hit g (abs_pos bp i) (state b i) <-> chosen (aarea g) (invert g) (searched g) bp b i.
Proof. done. Qed.

Lemma local_run E W g main input pos : setting E W g main pos -> in_place (acmd g) = true -> plausible E g main input ->
  exists main' l, run_ok E g W main input main' l /\ each_block E main main' (acted g (adel g)).
Proof.
  intros HS Hin Hpl.
  assert (forall names m u R, edits E W g main input names m u R ->
    (forall k bp x b b', block_at k bp -> main !! k = Some x -> deserialize E x = Ok b -> R bp b b' -> acted g (adel g) bp b b') ->
    exists main' l, run_ok E g W main input main' l /\ each_block E main main' (acted g (adel g))) as Hfin.
  { intros names m u R (main' & f & Hrun & _ & Heff) HR. eexists main', _. split; [exact Hrun|]. by eapply effect_each. }
  assert (blocks E main consistent -> blocks E main (sound 65533)) as Hso by (intros H k x b Hx Hd; by eapply H).
  assert (blocks E main consistent -> blocks E main unique_names) as Hu by (intros H k x b Hx Hd; by eapply H).
  assert (blocks E main consistent -> blocks E main meta_in) as Hmi.
  { intros H k x b Hx Hd. apply (sound_meta 65533). by eapply H. }
  assert (blocks E main consistent -> blocks E main timers_in) as Hti.
  { intros H k x b Hx Hd. apply (sound_timers 65533). by eapply H. }
  pose proof (set_supplied _ _ _ _ _ HS) as [_ Hs]. pose proof (adel_none g) as Hnd.
  unfold plausible in Hpl. destruct (acmd g) eqn:Hc; try done.
  - (* deletemeta *)
    destruct Hpl as [_ Hb]. eapply Hfin; [apply (delmeta_run E W g main input pos); auto|]. cbv beta.
    intros k bp x b b' _ _ _ HR. eapply changed_acted; [by rewrite Hc|intros; by apply Hnd| | |exact HR].
    + intros i m _. rewrite hit_chosen. unfold searched. rewrite Hc. change (o2l (anode g)) with (to_slice (anode g)). split.
      * intros Hh. unfold act. rewrite Hc. unfold with_meta. f_equal. destruct (st_meta _) as [m0|]; [|done]. cbn [mbind option_bind].
        unfold drop_chosen. by rewrite decide_True.
      * intros Hh. unfold drop_chosen. by rewrite decide_False.
    + intros [? ? ? ?]. cbn. intros ->. unfold act. by rewrite Hc.
  - (* deleteobjects *)
    eapply Hfin; [by apply (delobj_fn E W g main input pos)|]. cbv beta. intros k bp x b b' _ _ _ HR.
    assert (adel g = cdel g) as Hcd by (unfold adel; by rewrite Hc).
    split.
    + intros i Hi. assert (state b' i = state b i) as ->.
      { unfold state. assert (metadata (norm b') = metadata (norm b)) as -> by exact (f_equal metadata HR).
        unfold node_name, node_param1, node_param2.
        assert (ndata b' = ndata b) as -> by exact (f_equal ndata HR). by assert (nimap b' = nimap b) as -> by exact (f_equal nimap HR). }
      unfold act. rewrite Hc. by case_decide.
    + rewrite filter_all; [exact (f_equal timers HR)|]. intros t _. unfold stays. by rewrite Hc.
    + rewrite Hcd. exact (f_equal objects HR).
    + rewrite HR. apply meta_norm.
    + rewrite <-(shell_norm b'), HR. by apply (shell_norm b).
  - (* deletetimers *)
    destruct Hpl as [_ Hb]. eapply Hfin; [apply (deltimers_run E W g main input pos); auto|]. cbv beta.
    intros k bp x b b' _ _ _ HR. split.
    + intros i Hi. assert (state b' i = state b i) as ->.
      { unfold state. assert (metadata (norm b') = metadata (norm b)) as -> by exact (f_equal metadata HR).
        unfold node_name, node_param1, node_param2.
        assert (ndata b' = ndata b) as -> by exact (f_equal ndata HR). by assert (nimap b' = nimap b) as -> by exact (f_equal nimap HR). }
      unfold act. rewrite Hc. by case_decide.
    + etransitivity; [exact (f_equal timers HR)|]. cbn [timers with_timers]. apply NodeProofs.filter_ext_in. intros t _.
      unfold stays. rewrite Hc, hit_chosen. unfold searched. by rewrite Hc.
    + rewrite filter_all; [exact (f_equal objects HR)|intros; by apply Hnd].
    + rewrite HR. apply meta_norm.
    + rewrite <-(shell_norm b'), HR. by apply (shell_norm b).
  - (* fill *)
    destruct Hpl as [[Hf _] Hb]. destruct Hs as [[a Ea] [node Eo]].
    eapply Hfin; [apply (fill_run E W g main input pos a node); auto|]. cbv beta.
    intros k bp x b b' _ _ _ HR. eapply renamed_acted; [by left|intros; by apply Hnd|exact Eo| |exact HR].
    intros i. cbv beta. unfold hit, searched. rewrite Hc, Ea. tauto.
  - (* replacenodes *)
    destruct Hpl as [[Hf _] Hb]. destruct Hs as [[old Ea] [node Eo]].
    eapply Hfin; [apply (replace_run E W g main input pos old node); auto|]. cbv beta.
    intros k bp x b b' _ _ _ HR. eapply renamed_acted; [by right|intros; by apply Hnd|exact Eo| |exact HR].
    intros i. rewrite hit_chosen. unfold searched. by rewrite Hc, Ea.
  - (* replaceininv *)
    destruct Hpl as (Hb & Hpn & Hpi). destruct Hs as [item Ei].
    eapply Hfin; [apply (replinv_run E W g main input pos item); auto|].
    + intros m. destruct (adelete g); [done|]. intros [= <-]. apply Hpn. destruct (new_item g); cbn; auto.
    + intros k bp x b i m _ Hx Hd Hm _. by eapply Hpi.
    + cbv beta. intros k bp x b b' _ _ _ HR. eapply changed_acted; [by rewrite Hc|intros; by apply Hnd| | |exact HR].
      * intros i m Hm. rewrite hit_chosen. unfold searched. rewrite Hc. split.
        -- intros Hh. unfold act. rewrite Hc, Ei. cbn [default]. unfold with_meta. f_equal. destruct (st_meta _) as [m0|]; [|done].
           unfold change_chosen. cbn [mbind option_bind]. by rewrite decide_True.
        -- intros Hh. unfold change_chosen. by rewrite decide_False.
      * intros [? ? ? ?]. cbn. intros ->. unfold act. by rewrite Hc.
  - (* setmetavar *)
    destruct Hpl as [[_ Hf] Hb]. destruct Hs as [key Ek].
    eapply Hfin; [apply (setvar_run E W g main input pos key); auto|].
    cbv beta. intros k bp x b b' _ _ _ HR. eapply changed_acted; [by rewrite Hc|intros; by apply Hnd| | |exact HR].
    + intros i m Hm. rewrite hit_chosen. unfold searched. rewrite Hc. split.
      * intros Hh. unfold act. rewrite Hc, Ek. cbn [default]. unfold with_meta. f_equal. destruct (st_meta _) as [m0|]; [|done].
        unfold change_chosen. cbn [mbind option_bind]. by rewrite decide_True.
      * intros Hh. unfold change_chosen. by rewrite decide_False.
    + intros [? ? ? ?]. cbn. intros ->. unfold act. by rewrite Hc.
  - (* setparam2 *)
    destruct Hpl as [[v Ev] Hb].
    eapply Hfin; [apply (param2_run E W g main input pos v); auto|]. cbv beta.
    intros k bp x b b' _ _ _ HR. eapply repainted_acted; [done|intros; by apply Hnd|exact Ev| |exact HR].
    intros i. rewrite hit_chosen. unfold searched. by rewrite Hc.
Qed.

Lemma healthy_plausible E W g main input n : fair E W g input -> in_place (acmd g) = true -> n <= 65533 ->
  blocks E main (healthy n) -> plausible E g main input.
Proof.
  intros HF Hin Hn Hb. pose proof (fair_fit _ _ _ _ HF) as Hfit. pose proof (fair_tame _ _ _ _ HF) as Ht.
  assert (blocks E main consistent) as Hc.
  { intros k x b Hx Hd. pose proof (Hb k x b Hx Hd) as Hh. split; [|by apply Hh]. apply (sound_mono n); [lia|]. by apply Hh. }
  assert (blocks E main (fun b => forall i m, metadata b !! i = Some m -> plain_inv (inv m))) as Hi.
  { intros k x b Hx Hd i m Hm. pose proof (Hb k x b Hx Hd) as Hh. by apply (hl_inv _ _ Hh) in Hm. }
  unfold plausible. pose proof (fair_param2 _ _ _ _ HF) as Hp. destruct (acmd g); try done; split; try done. by apply Hp.
Qed.

(** An in-place command on a healthy map. *)
Lemma local_next E W g main input n : fair E W g input -> keys_ok main -> in_place (acmd g) = true -> 4095 <= n <= 7280 ->
  blocks E main (healthy n) -> exists main' l, run_ok E g W main input main' l /\
    each_block E main main' (acted g (adel g)) /\ keys_ok main' /\ blocks E main' (healthy (n + growth g)).
Proof.
  intros HF Hk Hin Hn Hb.
  destruct (local_run E W g main input from_block_key) as (m & l & Hrun & He); [by eapply fair_setting|done|exact (healthy_plausible E W g main input n HF Hin ltac:(lia) Hb)|].
  destruct (run_next E W g main input n HF Hk Hn Hb) as (m' & l' & Hrun' & _ & Hk' & Hb'); [by destruct (acmd g)|].
  destruct (run_ok_fun _ _ _ _ _ _ _ _ _ Hrun Hrun') as [-> _]. exists m', l'. done.
Qed.
Lemma local_second E W g main input n : fair E W g input -> keys_ok main -> in_place (acmd g) = true -> n <= 65533 ->
  blocks E main (healthy n) -> exists main' l, run_ok E g W main input main' l /\
    each_block E main main' (acted g (adel g)).
Proof.
  intros HF Hk Hin Hn Hb. eapply local_run; [by eapply fair_setting|done|exact (healthy_plausible E W g main input n HF Hin ltac:(lia) Hb)].
Qed.

(** Two ways from the same map. *)
Lemma each_two E main m1 m12 R1 R12 : each_block E main m1 R1 -> each_block E m1 m12 R12 ->
  each_block E main m12 (fun bp b b2 => exists k x b1, m1 !! k = Some x /\ deserialize E x = Ok b1 /\ R1 bp b b1 /\ R12 bp b1 b2).
Proof.
  intros [N1 E1] [N2 E2]. split; [auto|]. intros k bp x Hbp Hx. destruct (E1 k bp x Hbp Hx) as (y & Hy & H1).
  destruct (E2 k bp y Hbp Hy) as (z & Hz & H2). exists z. split; [done|].
  destruct (deserialize E x) as [b|] eqn:Ex.
  - destruct H1 as (b1 & Hd1 & HR1). rewrite Hd1 in H2. destruct H2 as (b2 & Hd2 & HR2).
    exists b2. split; [done|]. by exists k, y, b1.
  - subst y. rewrite Ex in H2. done.
Qed.
Lemma each_same E main m1 m2 R1 R2 : keys_ok main -> each_block E main m1 R1 -> each_block E main m2 R2 ->
  (forall k bp x b b1 b2, block_at k bp -> main !! k = Some x -> deserialize E x = Ok b -> R1 bp b b1 -> R2 bp b b2 -> alike b1 b2) ->
  same_contents E m1 m2.
Proof.
  intros Hk [N1 E1] [N2 E2] HR k. destruct (main !! k) as [x|] eqn:Hx; [|by rewrite N1, N2].
  destruct (Hk k ltac:(by eexists)) as [bp Hbp]. destruct (E1 k bp x Hbp Hx) as (y1 & -> & H1).
  destruct (E2 k bp x Hbp Hx) as (y2 & -> & H2). destruct (deserialize E x) as [b|] eqn:Ex; [|left; congruence].
  destruct H1 as (b1 & D1 & R1'). destruct H2 as (b2 & D2 & R2'). right. exists b1, b2. eauto.
Qed.

Lemma commute E W1 W2 W3 W4 g1 g2 main input1 input2 n :
  fair E W1 g1 input1 -> fair E W2 g2 input2 -> fair E W3 g2 input2 -> fair E W4 g1 input1 ->
  keys_ok main -> 4095 <= n <= 7280 -> blocks E main (healthy n) ->
  in_place (acmd g1) = true -> in_place (acmd g2) = true -> disjoint_areas g1 g2 ->
  exists m1 l1 m12 l12 m2 l2 m21 l21,
    (run_ok E g1 W1 main input1 m1 l1 /\ run_ok E g2 W2 m1 input2 m12 l12) /\
    (run_ok E g2 W3 main input2 m2 l2 /\ run_ok E g1 W4 m2 input1 m21 l21) /\ same_contents E m12 m21.
Proof.
  intros F1 F2 F3 F4 Hk Hn Hb I1 I2 Hdis.
  assert (forall g, 0 <= growth g <= 1) as Hg by (intros g; unfold growth; destruct (acmd g); lia).
  pose proof (Hg g1) as Hg1. pose proof (Hg g2) as Hg2.
  destruct (local_next E W1 g1 main input1 n) as (m1 & l1 & Run1 & Ea1 & K1 & B1); [done..|].
  destruct (local_second E W2 g2 m1 input2 (n + growth g1)) as (m12 & l12 & Run12 & Ea12); [done..|lia|done|].
  destruct (local_next E W3 g2 main input2 n) as (m2 & l2 & Run2 & Ea2 & K2 & B2); [done..|].
  destruct (local_second E W4 g1 m2 input1 (n + growth g2)) as (m21 & l21 & Run21 & Ea21); [done..|lia|done|].
  exists m1, l1, m12, l12, m2, l2, m21, l21. split; [done|]. split; [done|].
  eapply each_same; [exact Hk|eapply (each_two E main m1); eassumption|eapply (each_two E main m2); eassumption|].
  cbv beta. intros k bp x b b12 b21 _ Hx Hd (k1 & y1 & b1 & Hy1 & Hd1 & A1 & A12) (k2 & y2 & b2 & Hy2 & Hd2 & A2 & A21).
  pose proof (hl_sound _ _ (Hb k x b Hx Hd)) as Hs. pose proof (hl_sound _ _ (B1 k1 y1 b1 Hy1 Hd1)) as Hs1.
  pose proof (hl_sound _ _ (B2 k2 y2 b2 Hy2 Hd2)) as Hs2.
  eapply (commute_alike g1 g2 (adel g1) (adel g2) bp b b1 b12 b2 b21); try done.
  - by apply (sound_meta n).
  - by apply (sound_timers n).
  - by apply (sound_meta _ _ Hs1).
  - by apply (sound_meta _ _ Hs2).
Qed.

Lemma split E W W1 W2 g a1 i1 a2 i2 main input n :
  let g1 := on_area a1 i1 g in let g2 := on_area a2 i2 g in
  fair E W g input -> fair E W1 g1 input -> fair E W2 g2 input ->
  keys_ok main -> 4095 <= n <= 7280 -> blocks E main (healthy n) ->
  in_place (acmd g) = true ->
  (acmd g = CDeleteObjects -> all_objects E main (fun bp o => in_reach o /\ home bp o)) ->
  (forall p, selected (aarea g) (invert g) p <-> selected a1 i1 p \/ selected a2 i2 p) ->
  exists m l m1 l1 m12 l12, run_ok E g W main input m l /\
    (run_ok E g1 W1 main input m1 l1 /\ run_ok E g2 W2 m1 input m12 l12) /\ same_contents E m m12.
Proof.
  intros g1 g2 F F1 F2 Hk Hn Hb Hin Hno Hsel.
  assert (0 <= growth g1 <= 1) as Hg by (unfold growth; destruct (acmd g1); lia).
  destruct (local_next E W g main input n) as (m & l & Run & Ea & _ & _); [done..|].
  destruct (local_next E W1 g1 main input n) as (m1 & l1 & Run1 & Ea1 & K1 & B1); [done..|].
  destruct (local_second E W2 g2 m1 input (n + growth g1)) as (m12 & l12 & Run12 & Ea12); [done..|lia|done|].
  exists m, l, m1, l1, m12, l12. split; [done|]. split; [done|].
  eapply each_same; [exact Hk|exact Ea|eapply (each_two E main m1); eassumption|].
  cbv beta. intros k bp x b b' b12 Hbp Hx Hd A (k1 & y1 & b1 & Hy1 & Hd1 & A1 & A12).
  pose proof (hl_sound _ _ (Hb k x b Hx Hd)) as Hs. pose proof (hl_sound _ _ (B1 k1 y1 b1 Hy1 Hd1)) as Hs1.
  eapply (split_alike g a1 i1 a2 i2 (adel g) (adel g1) (adel g2) bp b b' b1 b12); try done.
  - by apply F.
  - by apply F.
  - by apply (sound_meta n).
  - by apply (sound_timers n).
  - by apply (sound_meta _ _ Hs1).
  - intros o Hob. assert (acmd g = CDeleteObjects \/ acmd g <> CDeleteObjects) as [Hc|Hc] by (destruct (acmd g); auto).
    + specialize (Hno Hc k bp x b Hbp Hx Hd). rewrite Forall_forall in Hno. destruct (Hno o Hob) as [Hr Hh].
      assert (wf_object o) as Hwo by (eapply Forall_forall; [|exact Hob]; apply (deserialize_wf E x b Hd)).
      rewrite !adel_home by done. rewrite (wanted_split g a1 i1 a2 i2 o Hsel).
      change (acmd g1) with (acmd g). change (acmd g2) with (acmd g). tauto.
    + rewrite !adel_none by done. tauto.
Qed.

Lemma node_by_node g : exists del : vec3 -> static_object -> bool,
  (forall bp o, wf_object o -> (is_Some (aarea g) -> in_reach o) -> del bp o = true <->
    acmd g = CDeleteObjects /\
    object_chosen (aarea g) (invert g) (wanted_object g) (default [] (aitems g)) bp o) /\
  forall E W main input pos, setting E W g main pos -> in_place (acmd g) = true -> plausible E g main input ->
    exists main' l, run_ok E g W main input main' l /\ each_block E main main' (acted g del).
Proof. exists (adel g). split; [apply adel_iff|]. intros E W main input pos. apply local_run. Qed.
