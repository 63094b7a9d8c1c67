(** Proofs about counts on parts of an area *)
From Verif Require Import CodecProofs BlockProofs UtilsProofs QueryProofs EditProofs NodeProofs MetaProofs InvProofs ObjProofs WholeProofs ArgProofs MapProofs MixProofs
  ThreadProofs FragProofs CopyProofs CopyRun OverlayRun ToyRun CmdFacts SpecNodes KeepProofs OrderProofs AgainProofs LocalProofs CongProofs LawProofs
  SpecCopy SpecAdd SpecAgain SpecLocal Spec.

(** ** Sums *)
Lemma zsum_cons {A} (f : A -> Z) x l : zsum f (x :: l) = f x + zsum f l.
Proof. done. Qed.
Lemma zsum_add {A} (f g h : A -> Z) l : (forall x, x ∈ l -> f x = g x + h x) -> zsum f l = zsum g l + zsum h l.
Proof.
  induction l as [|x l IH]; intros H; [done|]. rewrite !zsum_cons, (H x) by left. rewrite IH; [lia|]. intros y Hy. apply H. by right.
Qed.
Lemma zsum_point {A} (f g : A -> Z) i l : NoDup l -> i ∈ l -> (forall j, j <> i -> f j = g j) -> zsum f l = zsum g l + f i - g i.
Proof.
  intros Hn. revert i. induction Hn as [|x l Hx Hn IH]; intros i Hi Hf; [by apply elem_of_nil in Hi|]. rewrite !zsum_cons.
  apply elem_of_cons in Hi as [->|Hi].
  - rewrite (zsum_ext f g l); [lia|]. intros y Hy. apply Hf. intros ->. done.
  - rewrite (IH i Hi Hf), (Hf x); [lia|]. by intros ->.
Qed.
(** Sums over entries as sums over all nodes *)
Lemma zsum_nodes (G : Z -> node_meta -> Z) (md : metadata_t) : (forall i m, md !! i = Some m -> 0 <= i < 4096) ->
  zsum (fun e => G e.1 e.2) (map_to_list md) = zsum (fun i => from_option (G i) 0 (md !! i)) (seqZ 0 4096).
Proof.
  induction md as [|i m md Hi IH] using map_ind; intros Hr.
  - rewrite map_to_list_empty. symmetry. rewrite (zsum_ext _ (fun _ => 0)).
    + generalize (seqZ 0 4096). induction l as [|? ? IHl]; [done|]. by rewrite zsum_cons, IHl.
    + intros i _. by rewrite lookup_empty.
  - rewrite (zsum_perm _ _ _ (map_to_list_insert md i m Hi)). rewrite zsum_cons. cbn [fst snd].
    rewrite IH.
    2:{ intros j e Hj. apply (Hr j e). rewrite lookup_insert_ne; [done|]. intros <-. congruence. }
    rewrite (zsum_point (fun j => from_option (G j) 0 (<[i:=m]> md !! j)) (fun j => from_option (G j) 0 (md !! j)) i).
    + rewrite lookup_insert, Hi. cbn. lia.
    + apply NoDup_seqZ.
    + apply elem_of_seqZ. specialize (Hr i m). rewrite lookup_insert in Hr. specialize (Hr eq_refl). lia.
    + intros j Hj. by rewrite lookup_insert_ne.
Qed.

(** ** Sums over blocks *)
Lemma total_keys E m f : total E m from_block_key f =
  zsum (fun k => from_option (fun x => match deserialize E x with Ok b => f (from_block_key k) b | Err _ => 0 end) 0 (m !! k)) (map_to_list m).*1.
Proof.
  unfold total. assert (forall kx, kx ∈ map_to_list m -> m !! kx.1 = Some kx.2) as H by (intros [k x] Hx; by apply elem_of_map_to_list).
  revert H. generalize (map_to_list m). induction l as [|[k x] l IH]; intros H; [done|].
  rewrite fmap_cons, !zsum_cons. rewrite (H (k, x)) by left. cbn [fst snd from_option]. f_equal. apply IH. intros y Hy. apply H. by right.
Qed.
Lemma total_add E main m1 R f f1 f2 : keys_ok main -> each_block E main m1 R ->
  (forall k bp x b y b1, main !! k = Some x -> block_at k bp -> deserialize E x = Ok b -> m1 !! k = Some y -> deserialize E y = Ok b1 -> R bp b b1 ->
     f bp b = f1 bp b + f2 bp b1) ->
  total E main from_block_key f = total E main from_block_key f1 + total E m1 from_block_key f2.
Proof.
  intros Hk [HN HA] Hf. rewrite !total_keys.
  rewrite (zsum_perm _ (map_to_list m1).*1 (map_to_list main).*1).
  - apply zsum_add. intros k Hk'. apply elem_of_list_fmap in Hk' as ([k' x] & -> & Hx). apply elem_of_map_to_list in Hx. cbn [fst].
    destruct (Hk k' ltac:(by eexists)) as [bp Hbp]. destruct (block_at_key k' bp Hbp) as [_ Eb].
    destruct (HA k' bp x Hbp Hx) as (y & Hy & Hr). rewrite Hx, Hy. cbn [from_option]. rewrite Eb.
    destruct (deserialize E x) as [b|] eqn:Ex; [|subst y; by rewrite Ex]. destruct Hr as (b1 & D1 & HR). rewrite D1. by eapply Hf.
  - apply NoDup_Permutation; [apply NoDup_fst_map_to_list..|]. intros k.
    assert (forall m : mapdata, k ∈ (map_to_list m).*1 <-> is_Some (m !! k)) as Hin.
    { intros m. rewrite elem_of_list_fmap. split.
      - intros ([k' x] & -> & Hx). exists x. by apply elem_of_map_to_list.
      - intros [x Hx]. exists (k, x). split; [done|]. by apply elem_of_map_to_list. }
    rewrite !Hin. split.
    + intros [y Hy]. destruct (main !! k) as [x|] eqn:Hx; [by eexists|]. by rewrite (HN k Hx) in Hy.
    + intros [x Hx]. destruct (Hk k ltac:(by eexists)) as [bp Hbp]. destruct (HA k bp x Hbp Hx) as (y & Hy & _). by exists y.
Qed.

(** ** Sums over nodes *)
Definition node_sum (g : args) (wt : node_state -> Z) (bp : vec3) (b : block) : Z :=
  zsum (fun i => if decide (hit g (abs_pos bp i) (state b i)) then wt (state b i) else 0) (seqZ 0 4096).

Lemma hit_parts g a1 i1 a2 i2 p s :
  (forall p, selected (aarea g) (invert g) p <-> selected a1 i1 p \/ selected a2 i2 p) ->
  hit g p s <-> hit (on_area a1 i1 g) p s \/ hit (on_area a2 i2 g) p s.
Proof.
  intros Hsel. unfold hit. cbn [aarea invert on_area].
  change (searched (on_area a1 i1 g)) with (searched g). change (searched (on_area a2 i2 g)) with (searched g). rewrite Hsel. tauto.
Qed.
Lemma node_sum_add g a1 i1 a2 i2 d bp b b1 wt :
  (forall p, selected (aarea g) (invert g) p <-> selected a1 i1 p \/ selected a2 i2 p) ->
  disjoint_areas (on_area a1 i1 g) (on_area a2 i2 g) -> acted (on_area a1 i1 g) d bp b b1 ->
  node_sum g wt bp b = node_sum (on_area a1 i1 g) wt bp b + node_sum (on_area a2 i2 g) wt bp b1.
Proof.
  intros Hsel Hdis A. apply zsum_add. intros i Hi. apply elem_of_seqZ in Hi.
  rewrite (acted_nodes _ _ _ _ _ A i) by lia. set (s := state b i). set (p := abs_pos bp i).
  pose proof (hit_parts g a1 i1 a2 i2 p s Hsel) as Hh.
  destruct (decide (hit (on_area a1 i1 g) p s)) as [H1|H1].
  - rewrite decide_True by tauto. rewrite decide_False; [lia|]. intros [H2 _]. destruct H1 as [H1 _]. by apply (Hdis p).
  - destruct (decide (hit (on_area a2 i2 g) p s)) as [H2|H2]; [rewrite decide_True by tauto|rewrite decide_False by tauto]; lia.
Qed.

Lemma count_sum g bp b : count_if (chosen (aarea g) (invert g) (searched g) bp b) = node_sum g (fun _ => 1) bp b.
Proof. unfold count_if, node_sum. rewrite <-zsum_count. apply zsum_ext. intros i _. pose proof (hit_chosen g bp b i). do 2 case_decide; tauto. Qed.
Lemma fill_sum g bp b : acmd g = CFill -> count_if (fun i => selected (aarea g) (invert g) (abs_pos bp i)) = node_sum g (fun _ => 1) bp b.
Proof.
  intros Hc. rewrite <-count_sum. apply count_if_same. intros i _. unfold chosen, searched. rewrite Hc. tauto.
Qed.
Lemma meta_sum g bp b (F : node_meta -> Z) : meta_in b ->
  (forall i m, metadata b !! i = Some m -> F m = from_option F 0 (metadata (norm b) !! i)) ->
  zsum (fun e => if decide (chosen (aarea g) (invert g) (searched g) bp b e.1) then F e.2 else 0) (map_to_list (metadata b)) =
  node_sum g (fun s => from_option F 0 (st_meta s)) bp b.
Proof.
  intros Hm HF.
  pose (G := fun (i : Z) (m : node_meta) => if decide (chosen (aarea g) (invert g) (searched g) bp b i) then F m else 0).
  etransitivity; [apply (zsum_nodes G); intros i m Hi; by eapply Hm|]. unfold G.
  apply zsum_ext. intros i _. pose proof (hit_chosen g bp b i) as Hh. change (st_meta (state b i)) with (metadata (norm b) !! i).
  destruct (metadata b !! i) as [m|] eqn:Em; cbn [from_option].
  - rewrite <-(HF i m Em). do 2 case_decide; tauto.
  - replace (metadata (norm b) !! i) with (@None node_meta); [cbn; by case_decide|].
    change (metadata (norm b)) with (norm_metadata (version b) (metadata b)). by rewrite norm_lookup, Em.
Qed.
Lemma entries_sum g bp b (P : node_meta -> Prop) {HP : forall m, Decision (P m)} (Q : Z -> node_meta -> Prop) {HQ : forall i m, Decision (Q i m)} :
  (forall i m, Q i m <-> chosen (aarea g) (invert g) (searched g) bp b i /\ P m) -> meta_in b ->
  (forall i m, metadata b !! i = Some m -> P m <-> exists m', metadata (norm b) !! i = Some m' /\ P m') ->
  entries Q (metadata b) = node_sum g (fun s => from_option (fun m => if decide (P m) then 1 else 0) 0 (st_meta s)) bp b.
Proof.
  intros HQP Hm HF. rewrite <-meta_sum; [|done|].
  - unfold entries, count_of. rewrite <-zsum_count. apply zsum_ext. intros [i m] _. cbn [fst snd]. specialize (HQP i m).
    destruct (decide (Q i m)), (decide (chosen (aarea g) (invert g) (searched g) bp b i)), (decide (P m)); tauto.
  - intros i m Hi. specialize (HF i m Hi). destruct (metadata (norm b) !! i) as [m'|]; cbn.
    + assert (P m <-> P m') as HPP by (rewrite HF; split; [by intros (? & [= <-] & ?)|by exists m']). do 2 case_decide; tauto.
    + rewrite decide_False; [done|]. rewrite HF. by intros (? & [=] & _).
Qed.

(** What the format keeps *)
Lemma norm_meta b i m : metadata b !! i = Some m -> metadata (norm b) !! i = kept (version b) m.
Proof. intros Hi. change (metadata (norm b)) with (norm_metadata (version b) (metadata b)). by rewrite norm_lookup, Hi. Qed.
Lemma kept_var key v m : is_Some (vars m !! key) <-> exists m', kept v m = Some m' /\ is_Some (vars m' !! key).
Proof.
  unfold kept. split.
  - intros [x Hx]. rewrite decide_False by (intros [Hv _]; by rewrite Hv, lookup_empty in Hx). eexists. split; [done|].
    destruct (28 <=? v); [by exists x|]. cbn. rewrite lookup_fmap, Hx. by eexists.
  - intros (m' & Hk & Hx). case_decide; [done|]. injection Hk as <-. destruct (28 <=? v); [done|].
    cbn in Hx. rewrite lookup_fmap in Hx. by apply fmap_is_Some in Hx.
Qed.
Lemma stacks_end item : stacks item END_STR = 0.
Proof.
  unfold stacks. assert (lines END_STR = [bstr "EndInventory"]) as -> by (by vm_compute).
  unfold count_of. rewrite filter_cons_False; [done|]. unfold is_stack, stack_rest. rewrite decide_False; [by intros [? [=]]|].
  intros H. rewrite app_length in H. by apply (f_equal head) in H.
Qed.
Lemma kept_stacks item v m : stacks item (inv m) = from_option (fun m' => stacks item (inv m')) 0 (kept v m).
Proof.
  unfold kept. case_decide as Hb; cbn [from_option].
  - destruct Hb as [_ ->]. apply stacks_end.
  - by destruct (28 <=? v).
Qed.

(** ** Lists *)
Lemma count_list {A} (P P1 P2 : A -> Prop) {HP : forall x, Decision (P x)} {H1 : forall x, Decision (P1 x)} {H2 : forall x, Decision (P2 x)}
    (K : A -> Prop) {HK : forall x, Decision (K x)} l :
  (forall x, x ∈ l -> P x <-> P1 x \/ P2 x) -> (forall x, x ∈ l -> K x <-> ~ P1 x) -> (forall x, x ∈ l -> P1 x -> ~ P2 x) ->
  count_of P l = count_of P1 l + count_of P2 (filter K l).
Proof.
  intros Hp Hk Hd. unfold count_of. rewrite list_filter_filter, <-!zsum_count. apply zsum_add. intros x Hx.
  specialize (Hp x Hx). specialize (Hk x Hx). specialize (Hd x Hx).
  destruct (decide (P1 x)) as [a|a], (decide (P2 x)) as [c|c].
  - tauto.
  - rewrite decide_True by tauto. rewrite decide_False by tauto. done.
  - rewrite decide_True by tauto. rewrite decide_True by tauto. done.
  - rewrite decide_False by tauto. rewrite decide_False by tauto. done.
Qed.

(** ** Commands *)
Lemma reports_told E W g main input m l c : run_ok E g W main input m l -> reports E W g main input c -> told E W g main input m c.
Proof. intros H (m' & f & H'). destruct (run_ok_fun _ _ _ _ _ _ _ _ _ H H') as [-> _]. by exists f. Qed.

Lemma parts_add E W W1 W2 g a1 i1 a2 i2 main input n :
  let g1 := on_area a1 i1 g in let g2 := on_area a2 i2 g in
  fair E W g input -> fair E W1 g1 input -> fair E W2 g2 input ->
  keys_ok main -> 4095 <= n <= 7280 -> blocks E main (healthy n) ->
  in_place (acmd g) = true ->
  (acmd g = CDeleteObjects -> all_objects E main (fun bp o => in_reach o /\ home bp o)) ->
  (acmd g = CDeleteMeta -> blocks E main storable) ->
  (acmd g = CFill -> invert g = false /\ i1 = false /\ i2 = false) ->
  (forall p, selected (aarea g) (invert g) p <-> selected a1 i1 p \/ selected a2 i2 p) ->
  disjoint_areas g1 g2 ->
  exists m c m1 c1 m12 c2, told E W g main input m c /\ told E W1 g1 main input m1 c1 /\ told E W2 g2 m1 input m12 c2 /\ sums c c1 c2.
Proof.
  intros g1 g2 F F1 F2 Hk Hn Hb Hin Hob Hst Hfl Hsel Hdis.
  assert (0 <= growth g1 <= 1) as Hg by (unfold growth; destruct (acmd g1); lia).
  destruct (local_next E W g main input n) as (m & l & Run & _ & _ & _); [done..|].
  destruct (local_next E W1 g1 main input n) as (m1 & l1 & Run1 & Ea1 & K1 & B1); [done..|].
  destruct (local_second E W2 g2 m1 input (n + growth g1)) as (m12 & l12 & Run12 & _); [done..|lia|done|].
  pose proof (fair_supplied _ _ _ _ F) as [_ Hs].
  assert (forall m k c, k <= c -> blocks E m (healthy k) -> blocks E m (sound c)) as Hsound.
  { intros m' k c Hc Hm q x b Hx Hd. apply (sound_mono k); [lia|]. by eapply Hm. }
  assert (forall m k, blocks E m (healthy k) -> blocks E m meta_in /\ blocks E m timers_in /\ blocks E m unique_names) as Hparts.
  { intros m' k Hm. split; [|split]; intros q x b Hx Hd; [apply (sound_meta k)|apply (sound_timers k)|]; by eapply Hm. }
  destruct (Hparts main n Hb) as (M0 & T0 & U0). destruct (Hparts m1 _ B1) as (M1 & T1 & U1).
  pose proof (Hsound main n 65533 ltac:(lia) Hb) as S0. pose proof (Hsound m1 (n + growth g1) 65533 ltac:(lia) B1) as S1.
  pose proof (fair_setting _ _ _ _ _ F Hk) as HS. pose proof (fair_setting _ _ _ _ _ F1 Hk) as HS1.
  pose proof (fair_setting _ _ _ _ _ F2 K1) as HS2.
  assert (forall c c1 c2, reports E W g main input c -> reports E W1 g1 main input c1 -> reports E W2 g2 m1 input c2 -> sums c c1 c2 ->
    exists m c m1 c1 m12 c2, told E W g main input m c /\ told E W1 g1 main input m1 c1 /\ told E W2 g2 m1 input m12 c2 /\ sums c c1 c2) as Go.
  { intros c c1 c2 R R1 R2 Hsum. exists m, c, m1, c1, m12, c2. split; [by eapply reports_told|]. split; [by eapply reports_told|].
    split; [by eapply reports_told|done]. }
  (* sums over nodes *)
  assert (forall wt, total E main from_block_key (node_sum g wt) =
    total E main from_block_key (node_sum g1 wt) + total E m1 from_block_key (node_sum g2 wt)) as Hnodes.
  { intros wt. eapply total_add; [exact Hk|exact Ea1|]. intros k bp x b y b1 _ _ _ _ _ HA. by eapply node_sum_add. }
  assert (forall (m : mapdata) f f', (forall k x b bp, m !! k = Some x -> deserialize E x = Ok b -> f bp b = f' bp b) ->
    total E m from_block_key f = total E m from_block_key f') as Htot.
  { intros m' f f' H. apply zsum_ext. intros [k x] Hx%elem_of_map_to_list. cbn [fst snd]. destruct (deserialize E x) eqn:Ex; [|done]. by eapply H. }
  destruct (acmd g) eqn:Hc; try done.
  - (* deletemeta *)
    specialize (Hst eq_refl).
    assert (blocks E m1 storable) as St1.
    { destruct (delmeta_run E W1 g1 main input from_block_key HS1 Hc M0 (fun _ => U0)) as (m1' & f & R & _ & He).
      destruct (run_ok_fun _ _ _ _ _ _ _ _ _ Run1 R) as [-> _]. exact (effect_storable _ _ _ _ _ Hk He Hst). }
    eapply Go; [apply delmeta_reports; done..|]. cbn [sums].
    assert (forall g' m', acmd g' = CDeleteMeta -> blocks E m' meta_in -> blocks E m' storable ->
      total E m' from_block_key (fun bp b => entries (fun i _ => chosen (aarea g') (invert g') (o2l (anode g')) bp b i) (metadata b)) =
      total E m' from_block_key (node_sum g' (fun s => from_option (fun m => if decide True then 1 else 0) 0 (st_meta s)))) as Q.
    { intros g' m' Hc' Hm Hstm. apply Htot. intros k x b bp Hx Hd. apply (entries_sum g' bp b (fun _ => True)).
      - intros i m0. unfold searched. rewrite Hc'. tauto.
      - by eapply Hm.
      - intros i m0 Hi. replace (norm b) with b by (symmetry; by eapply Hstm). split; [by exists m0|done]. }
    rewrite !Q by done. apply Hnodes.
  - (* deleteobjects *)
    specialize (Hob eq_refl).
    eapply Go; [eapply edits_reports; apply delobj_fn; done..|]. cbn [sums].
    eapply total_add; [exact Hk|exact Ea1|]. intros k bp x b y b1 Hx Hbp Hd _ _ HA.
    rewrite (acted_objects _ _ _ _ _ HA). apply count_list.
    + intros o Ho. assert (wf_object o) as Hwo by (eapply Forall_forall; [|exact Ho]; apply (deserialize_wf E x b Hd)).
      specialize (Hob k bp x b Hbp Hx Hd). rewrite Forall_forall in Hob. destruct (Hob o Ho) as [Hr Hh].
      pose proof (adel_home g bp o Hwo Hr Hh) as A. pose proof (adel_home g1 bp o Hwo Hr Hh) as A1. pose proof (adel_home g2 bp o Hwo Hr Hh) as A2.
      unfold adel in A, A1, A2. change (acmd g1) with (acmd g) in A1. change (acmd g2) with (acmd g) in A2. rewrite Hc in A, A1, A2.
      rewrite A, A1, A2, (wanted_split g a1 i1 a2 i2 o Hsel). fold g1 g2. tauto.
    + intros o _. unfold adel. change (acmd g1) with (acmd g). rewrite Hc. by destruct (cdel g1 bp o).
    + intros o Ho C1 C2. assert (wf_object o) as Hwo by (eapply Forall_forall; [|exact Ho]; apply (deserialize_wf E x b Hd)).
      specialize (Hob k bp x b Hbp Hx Hd). rewrite Forall_forall in Hob. destruct (Hob o Ho) as [Hr Hh].
      apply cdel_iff in C1; [|done|done]. apply cdel_iff in C2; [|done|done].
      destruct C1 as (_ & (p1 & Hp1 & Hs1) & _). destruct C2 as (_ & (p2 & Hp2 & Hs2) & _).
      apply nearest_iff in Hp1, Hp2. subst p1 p2. by apply (Hdis _ Hs1).
  - (* deletetimers *)
    eapply Go; [apply deltimers_reports; done..|]. cbn [sums].
    eapply total_add; [exact Hk|exact Ea1|]. intros k bp x b y b1 Hx Hbp Hd _ _ HA.
    assert (forall t, t ∈ timers b -> 0 <= tpos t < 4096) as Ht.
    { intros t Ht. pose proof (T0 k x b Hx Hd) as Hti. unfold timers_in in Hti. rewrite Forall_forall in Hti. by apply Hti. }
    assert (forall g', acmd g' = CDeleteTimers -> forall b i, hit g' (abs_pos bp i) (state b i) <-> chosen (aarea g') (invert g') (o2l (anode g')) bp b i) as Hh.
    { intros g' Hc' b' i. rewrite hit_chosen. unfold searched. by rewrite Hc'. }
    assert (forall t, t ∈ timers b -> ~ hit g1 (abs_pos bp (tpos t)) (state b (tpos t)) -> state b1 (tpos t) = state b (tpos t)) as Hsame.
    { intros t Htb Hnh. rewrite (acted_nodes _ _ _ _ _ HA) by (by apply Ht). by rewrite decide_False. }
    rewrite (acted_timers _ _ _ _ _ HA).
    rewrite (count_of_same _ (fun t => chosen (aarea g2) (invert g2) (o2l (anode g2)) bp b (tpos t)) (filter (stays g1 bp b) (timers b))).
    2:{ intros t [Hk1 Htb]%elem_of_list_filter. rewrite <-!Hh by done. unfold stays in Hk1. change (acmd g1) with (acmd g) in Hk1. rewrite Hc in Hk1.
        by rewrite Hsame. }
    apply count_list.
    + intros t _. rewrite <-!Hh by done. by apply hit_parts.
    + intros t _. rewrite <-Hh by done. unfold stays. change (acmd g1) with (acmd g). by rewrite Hc.
    + intros t _ [C1 _] [C2 _]. by apply (Hdis _ C1).
  - (* fill *)
    destruct Hs as [[a Ea] [node Eo]]. destruct (Hfl eq_refl) as (Hi & -> & ->).
    pose proof (fair_supplied _ _ _ _ F1) as [_ Hs1]. change (acmd g1) with (acmd g) in Hs1. rewrite Hc in Hs1. destruct Hs1 as [[a' Ea1'] _].
    pose proof (fair_supplied _ _ _ _ F2) as [_ Hs2]. change (acmd g2) with (acmd g) in Hs2. rewrite Hc in Hs2. destruct Hs2 as [[a'' Ea2'] _].
    pose proof (fair_fit _ _ _ _ F) as Hfit.
    eapply Go; [eapply fill_reports; try done; by apply Hfit..|]. cbn [sums].
    rewrite <-Ea, <-Ea1', <-Ea2'.
    assert (forall g' m', acmd g' = CFill -> total E m' from_block_key (fun bp _ => count_if (fun i => selected (aarea g') (invert g') (abs_pos bp i))) =
      total E m' from_block_key (node_sum g' (fun _ => 1))) as Q.
    { intros g' m' Hc'. apply Htot. intros k x b bp _ _. by apply fill_sum. }
    rewrite !Q by done. apply Hnodes.
  - (* replacenodes *)
    destruct Hs as [[old Ea] [new Eo]]. pose proof (fair_fit _ _ _ _ F) as Hfit.
    eapply Go; [eapply replace_reports; try done; by apply Hfit..|]. cbn [sums].
    assert (forall g' m', acmd g' = CReplaceNodes -> anode g' = Some old ->
      total E m' from_block_key (fun bp b => count_if (chosen (aarea g') (invert g') [old] bp b)) =
      total E m' from_block_key (node_sum g' (fun _ => 1))) as Q.
    { intros g' m' Hc' Ho. apply Htot. intros k x b bp _ _. rewrite <-count_sum. unfold searched. by rewrite Hc', Ho. }
    rewrite !Q by done. apply Hnodes.
  - (* replaceininv *)
    destruct Hs as [item Ei].
    assert (adelete g = false -> plain_name (default item (new_item g))) as Hpl.
    { intros Hdel. apply (fair_tame _ _ _ _ F). destruct (new_item g); [by right|by left]. }
    assert (forall g' W' m' q, setting E W' g' m' from_block_key -> acmd g' = CReplaceInInv -> aitem g' = Some item -> adelete g' = adelete g ->
      new_item g' = new_item g -> blocks E m' meta_in -> blocks E m' unique_names -> blocks E m' (healthy q) ->
      reports E W' g' m' input (MStacks
        (total E m' from_block_key (fun bp b => zsum (fun e => if decide (chosen (aarea g') (invert g') (anodes g') bp b e.1) then stacks item (inv e.2) else 0)
          (map_to_list (metadata b))) mod 18446744073709551616)
        (total E m' from_block_key (fun bp b =>
          entries (fun i m => chosen (aarea g') (invert g') (anodes g') bp b i /\ 0 < stacks item (inv m)) (metadata b))))) as Rep.
    { intros g' W' m' q HS' Hc' Hi' Hd' Hn' Hm' Hu' Hb'. apply replinv_reports; try done; [by rewrite Hd', Hn'|].
      intros k bp x b i e _ Hx Hd He _. by eapply (hl_inv q); [eapply Hb'|]. }
    eapply Go; [by eapply Rep..|].
    cbn [sums].
    assert (forall g' m', acmd g' = CReplaceInInv -> blocks E m' meta_in ->
      total E m' from_block_key (fun bp b => zsum (fun e => if decide (chosen (aarea g') (invert g') (anodes g') bp b e.1) then stacks item (inv e.2) else 0)
        (map_to_list (metadata b))) =
      total E m' from_block_key (node_sum g' (fun s => from_option (fun m => stacks item (inv m)) 0 (st_meta s)))) as Q.
    { intros g' m' Hc' Hm. apply Htot. intros k x b bp Hx Hd. rewrite <-meta_sum.
      - unfold searched. by rewrite Hc'.
      - by eapply Hm.
      - intros i m0 Hi. rewrite (norm_meta b i m0 Hi). apply kept_stacks. }
    assert (forall g' m', acmd g' = CReplaceInInv -> blocks E m' meta_in ->
      total E m' from_block_key (fun bp b => entries (fun i m => chosen (aarea g') (invert g') (anodes g') bp b i /\ 0 < stacks item (inv m)) (metadata b)) =
      total E m' from_block_key (node_sum g' (fun s => from_option (fun m => if decide (0 < stacks item (inv m)) then 1 else 0) 0 (st_meta s)))) as Q2.
    { intros g' m' Hc' Hm. apply Htot. intros k x b bp Hx Hd. apply (entries_sum g' bp b (fun m => 0 < stacks item (inv m))).
      - intros i m0. unfold searched. by rewrite Hc'.
      - by eapply Hm.
      - intros i m0 Hi. rewrite (norm_meta b i m0 Hi), (kept_stacks item (version b) m0). destruct (kept (version b) m0) as [m'0|]; cbn.
        + split; [by exists m'0|by intros (? & [= <-] & ?)].
        + split; [lia|by intros (? & [=] & _)]. }
    split.
    + rewrite !Q by done. rewrite Hnodes. change (2 ^ 64) with 18446744073709551616. by rewrite <-Zplus_mod.
    + rewrite !Q2 by done. apply Hnodes.
  - (* setmetavar *)
    destruct Hs as [key Ek]. pose proof (fair_fit _ _ _ _ F) as Hfit.
    eapply Go; [eapply setvar_reports; try done; by apply Hfit..|]. cbn [sums].
    assert (forall g' m', acmd g' = CSetMetaVar -> blocks E m' meta_in ->
      total E m' from_block_key (fun bp b => entries (fun i m => chosen (aarea g') (invert g') (anodes g') bp b i /\ is_Some (vars m !! key)) (metadata b)) =
      total E m' from_block_key (node_sum g' (fun s => from_option (fun m => if decide (is_Some (vars m !! key)) then 1 else 0) 0 (st_meta s)))) as Q.
    { intros g' m' Hc' Hm. apply Htot. intros k x b bp Hx Hd. apply (entries_sum g' bp b (fun m => is_Some (vars m !! key))).
      - intros i m0. unfold searched. by rewrite Hc'.
      - by eapply Hm.
      - intros i m0 Hi. rewrite (norm_meta b i m0 Hi). apply kept_var. }
    rewrite !Q by done. apply Hnodes.
  - (* setparam2 *)
    destruct (fair_param2 _ _ _ _ F Hc) as [v Ev].
    eapply Go; [eapply param2_reports; done..|]. cbn [sums].
    assert (forall g' m', acmd g' = CSetParam2 ->
      total E m' from_block_key (fun bp b => count_if (chosen (aarea g') (invert g') (o2l (anode g')) bp b)) =
      total E m' from_block_key (node_sum g' (fun _ => 1))) as Q.
    { intros g' m' Hc'. apply Htot. intros k x b bp _ _. rewrite <-count_sum. unfold searched. by rewrite Hc'. }
    rewrite !Q by done. apply Hnodes.
Qed.
