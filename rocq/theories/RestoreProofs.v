(** Proofs about restoring from a backup *)
From Verif Require Import CodecProofs BlockProofs UtilsProofs QueryProofs EditProofs NodeProofs MetaProofs ObjProofs WholeProofs SpatialProofs ArgProofs MapProofs MixProofs
  ThreadProofs FragProofs CopyProofs CopyRun OverlayRun ToyRun CmdFacts SpecNodes KeepProofs OrderProofs AgainProofs LocalProofs SpecRestore Spec.

(** ** Blocks *)
Lemma state_alike b1 b2 : meta_in (norm b1) -> meta_in (norm b2) -> shell b1 = shell b2 -> timers b1 = timers b2 ->
  objects b1 = objects b2 -> (forall i, 0 <= i < 4096 -> state b1 i = state b2 i) -> alike b1 b2.
Proof.
  intros M1 M2 Hs Ht Ho HN.
  assert (metadata (norm b1) = metadata (norm b2)) as Hm.
  { apply map_eq. intros i. destruct (decide (0 <= i < 4096)) as [Hi|Hi]; [exact (f_equal st_meta (HN i Hi))|].
    destruct (metadata (norm b1) !! i) as [m|] eqn:E1; [by destruct Hi; eapply M1|].
    destruct (metadata (norm b2) !! i) as [m|] eqn:E2; [by destruct Hi; eapply M2|]. done. }
  unfold shell in Hs. apply pair_equal_spec in Hs as [Hs H6]. apply pair_equal_spec in Hs as [Hs H5].
  apply pair_equal_spec in Hs as [Hs H4]. apply pair_equal_spec in Hs as [Hs H3]. apply pair_equal_spec in Hs as [H1 H2]. split.
  - unfold same_but_nodes.
    transitivity (Block (version b2) (flags b2) (lighting (norm b2)) (content_width b2) (params_width b2) (ndata b2)
      (metadata (norm b2)) (objects b2) (timestamp b2) (nimap b2) (timers b2)); [done|].
    rewrite <-H1, <-H2, <-H3, <-H4, <-H5, <-H6, <-Hm, <-Ht, <-Ho. done.
  - intros i Hi. specialize (HN i Hi). unfold state in HN. by injection HN.
Qed.

Lemma shell_version b1 b2 : shell b1 = shell b2 -> version b1 = version b2 /\ flags b1 = flags b2.
Proof. unfold shell. intros Hs. by injection Hs. Qed.

Lemma same_state b' b i : version b' = version b -> same_node b' i b i -> state b' i = state b i.
Proof.
  intros Hv (H1 & H2 & H3 & H4). unfold state.
  change (metadata (norm b')) with (norm_metadata (version b') (metadata b')).
  change (metadata (norm b)) with (norm_metadata (version b) (metadata b)).
  rewrite !norm_lookup, H1, H2, H3, <-Hv, H4. done.
Qed.

Lemma rest_parts b b' : same_rest b b' -> shell b' = shell b /\ timers b' = timers b /\ objects b' = objects b /\ meta_in (norm b').
Proof.
  intros (HS & _ & Hm). split; [|split; [exact (f_equal timers HS)|split; [exact (f_equal objects HS)|by apply meta_norm]]].
  rewrite <-(shell_norm b'), HS. by apply (shell_norm b).
Qed.

(** Only selected nodes differ. *)
Record confined (a : option area) (inv : bool) (bp : vec3) (b b1 : block) : Prop := {
  conf_shell : shell b1 = shell b;
  conf_timers : timers b1 = timers b;
  conf_objects : objects b1 = objects b;
  conf_meta : meta_in (norm b1);
  conf_nodes : forall i, 0 <= i < 4096 -> ~ selected a inv (abs_pos bp i) -> state b1 i = state b i }.

Lemma mixed_alike a inv bp b b1 b' : meta_in b -> confined a inv bp b b1 -> mixed a inv bp b b1 b' -> alike b b'.
Proof.
  intros Hm [C1 C2 C3 _ C5] (HR & _ & _ & HN).
  assert (shell b' = shell b /\ timers b' = timers b /\ objects b' = objects b /\ meta_in (norm b')) as (S1 & S2 & S3 & S4).
  { destruct inv; [by apply rest_parts|]. apply rest_parts in HR as (-> & -> & -> & ?). done. }
  apply state_alike; try done; [by apply meta_norm|]. intros i Hi. specialize (HN i Hi). symmetry.
  destruct (shell_version _ _ S1) as [V _]. destruct (shell_version _ _ C1) as [V1 _].
  case_decide as Hs; [by apply same_state|]. rewrite <-(C5 i Hi Hs). apply same_state; [congruence|done].
Qed.
Lemma none_alike a inv bp b b1 : meta_in b -> confined a inv bp b b1 -> none a inv bp ->
  (forall i, 0 <= i < 4096 -> node_in_block bp (abs_pos bp i)) -> alike b b1.
Proof.
  intros Hm [C1 C2 C3 C4 C5] Hno Hin. apply state_alike; try done; [by apply meta_norm|]. intros i Hi. symmetry.
  apply C5; [done|]. by apply Hno, Hin.
Qed.

Lemma index_inside bp i : 0 <= i < 4096 -> node_in_block bp (abs_pos bp i).
Proof. intros Hi. apply block_of_iff. symmetry. by apply abs_pos_block. Qed.
Lemma corner_inside bp : node_in_block bp (block_corner bp).
Proof. unfold node_in_block, block_corner; simpl; lia. Qed.

(** ** The second run *)
(** [m1] is [main] up to changes in the selection. *)
Definition near (E : ext) (a : option area) (inv : bool) (main m1 : mapdata) : Prop :=
  (forall k, main !! k = None -> m1 !! k = None) /\
  forall k bp x, block_at k bp -> main !! k = Some x ->
    whole a inv bp \/
    exists y, m1 !! k = Some y /\
      match deserialize E x with
      | Err _ => y = x
      | Ok b => exists b1, deserialize E y = Ok b1 /\ confined a inv bp b b1
      end.

Lemma restore_run E W g main m1 n : fair E W g main -> acmd g = COverlay -> default (V3 0 0 0) (offset g) = V3 0 0 0 ->
  keys_ok m1 -> 4095 <= n <= 7280 -> blocks E main (healthy n) -> blocks E m1 (sound (n + 1)) -> all_generated E main ->
  near E (aarea g) (invert g) main m1 ->
  exists m2 l, run_ok E g W m1 main m2 l /\ same_contents E main m2.
Proof.
  intros HF Hc Ho Hk1 Hn Hb Hb1 Hgen [Hno Hnear].
  pose proof (fair_input _ _ _ _ HF) as Hk. pose proof (fair_ext _ _ _ _ HF) as HE.
  destruct (overlay_run E W g m1 main from_block_key) as (m2 & f & Run & _ & K & O); try done.
  { by eapply fair_setting. }
  { exists (n + 1), n. split; [|split; [done|]].
    - rewrite Ho. unfold room, pieces. simpl. lia.
    - intros k x b Hx Hd. by eapply Hb. }
  exists m2, (warnings g ++ closing f). split; [done|]. intros k.
  destruct (main !! k) as [x|] eqn:Hx; [|by rewrite (K k Hx), (Hno k Hx)].
  destruct (Hk k ltac:(by eexists)) as [bp Hbp]. destruct (O k bp x Hbp Hx) as (A & _ & C & D).
  pose proof (area_ok_args g (fair_supplied _ _ _ _ HF) (fair_legal _ _ _ _ HF)) as Ha.
  destruct (decide (wholeb (aarea g) (invert g) bp = true)) as [Hw|Hw].
  { apply wholeb_iff in Hw; [|apply Hbp|done]. rewrite A by (try done; by eapply Hgen). by left. }
  apply not_true_is_false in Hw. apply wholeb_false in Hw; [|apply Hbp|done].
  destruct (Hnear k bp x Hbp Hx) as [?|(y & Hy & Hr)]; [done|]. rewrite Hy in *.
  assert (forall b, deserialize E x = Ok b -> meta_in b) as Hmi.
  { intros b Hd. apply (sound_meta n). by eapply Hb. }
  destruct (decide (visitb (aarea g) (invert g) bp = true)) as [Hv|Hv].
  - apply visitb_iff in Hv as (q & Hq & Hs).
    assert (~ none (aarea g) (invert g) bp) as Hnone by (intros Hnn; by apply (Hnn q)).
    specialize (D Hw Hnone) as [_ D].
    assert (claims_generated E y) as Hcl.
    { destruct (deserialize E x) as [b|] eqn:Ex; [|subst y; by eapply Hgen]. destruct Hr as (b1 & Hd1 & Hconf).
      apply (claims_flags E y b1 HE Hd1). pose proof (proj1 (claims_flags E x b HE Ex) (Hgen k x Hx)) as Hg.
      unfold not_generated in *. by rewrite (proj2 (shell_version _ _ (conf_shell _ _ _ _ _ Hconf))). }
    specialize (D Hcl). destruct (deserialize E x) as [b|] eqn:Ex.
    + destruct Hr as (b1 & Hd1 & Hconf). rewrite Hd1 in D. destruct D as (z & b' & -> & Hd' & HM).
      right. exists b, b'. split; [done|]. split; [done|]. eapply mixed_alike; [by apply Hmi|done..].
    + subst y. rewrite D. by left.
  - assert (none (aarea g) (invert g) bp) as Hnone by (intros q Hq Hs; apply Hv, visitb_iff; by exists q).
    rewrite (C Hnone). destruct (deserialize E x) as [b|] eqn:Ex; [|by left].
    destruct Hr as (b1 & Hd1 & Hconf). right. exists b, b1. split; [done|]. split; [done|].
    eapply none_alike; [by apply Hmi|done|done|apply index_inside].
Qed.

(** ** The first run *)
Lemma state_refl a inv bp b : meta_in b -> confined a inv bp b b.
Proof. intros Hm. split; try done. by apply meta_norm. Qed.

Lemma acted_confined g del a inv bp b b1 : acmd g <> CDeleteTimers -> (forall o, del bp o = false) -> meta_in b ->
  (forall p, selected (aarea g) (invert g) p -> selected a inv p) -> acted g del bp b b1 -> confined a inv bp b b1.
Proof.
  intros Ht Hd Hm Hsel A. split.
  - apply A.
  - rewrite (acted_timers _ _ _ _ _ A). apply filter_all. intros t _. unfold stays. by destruct (acmd g).
  - rewrite (acted_objects _ _ _ _ _ A). apply filter_all. auto.
  - by apply (acted_meta _ _ _ _ _ A).
  - intros i Hi Hs. eapply acted_name; [exact A|done|]. intros H. by apply Hs, Hsel.
Qed.
Lemma pasted_confined E src a0 off a inv bp b b1 : meta_in b ->
  (forall p, selected a0 false (minus p off) -> selected a inv p) -> pasted E src a0 off bp b b1 -> confined a inv bp b b1.
Proof.
  intros Hm Hsel (HR & _ & HN). destruct (rest_parts _ _ HR) as (S1 & S2 & S3 & S4). split; try done.
  intros i Hi Hs. apply same_state; [by apply shell_version|]. apply (HN i Hi). intros [H _]. by apply Hs, Hsel.
Qed.

Lemma copies_near E W g main input src a0 off a inv n : blocks E main (healthy n) ->
  (forall p, selected a0 false (minus p off) -> selected a inv p) -> copies E W g main input src a0 off ->
  exists m1 l, run_ok E g W main input m1 l /\ near E a inv main m1.
Proof.
  intros Hb Hsel (m1 & f & Run & _ & Hno & He). eexists m1, _. split; [exact Run|]. split; [done|].
  intros k bp x Hbp Hx. right. destruct (He k bp x Hbp Hx) as (y & Hy & H). exists y. split; [done|].
  destruct (deserialize E x) as [b|] eqn:Ex; [|done]. destruct H as (Hu & b' & Hd & _ & HR). exists b'. split; [done|].
  assert (meta_in b) as Hm by (apply (sound_meta n); by eapply Hb).
  destruct HR as [Hng|HP]; [|by eapply pasted_confined].
  rewrite Hu in Hd by (by left). rewrite Ex in Hd. injection Hd as <-. by apply state_refl.
Qed.

Lemma first_near E W g g2 main input n : fair E W g input -> keys_ok main -> 4095 <= n <= 7280 ->
  blocks E main (healthy n) -> (acmd g = COverlay -> blocks E input (healthy n)) -> restorable g ->
  covers g g2 ->
  exists m1 l, run_ok E g W main input m1 l /\ near E (aarea g2) (invert g2) main m1.
Proof.
  intros HF Hk Hn Hb Hib Hre Hsel. pose proof (fair_setting E W g main input HF Hk) as HS.
  assert (forall m, blocks E m (healthy n) -> blocks E m (sound 7280)) as Hso.
  { intros m Hm k x b Hx Hd. apply (sound_mono n); [lia|]. by eapply Hm. }
  pose proof (fair_supplied _ _ _ _ HF) as [_ Hs2]. unfold restorable, covers, affects in *.
  set (a := aarea g2) in *. set (inv := invert g2) in *.
  assert (in_place (acmd g) = true -> acmd g <> CDeleteTimers -> acmd g <> CDeleteObjects ->
    (forall p, selected (aarea g) (invert g) p -> selected a inv p) ->
    exists m1 l, run_ok E g W main input m1 l /\ near E a inv main m1) as Hplace.
  { intros Hi Ht Hob Hs. destruct (local_next E W g main input n HF Hk Hi Hn Hb) as (m1 & l & Run & [Hno He] & _).
    exists m1, l. split; [done|]. split; [done|]. intros k bp x Hbp Hx. right.
    destruct (He k bp x Hbp Hx) as (y & Hy & H). exists y. split; [done|].
    destruct (deserialize E x) as [b|] eqn:Ex; [|done]. destruct H as (b' & Hd & HA). exists b'. split; [done|].
    eapply (acted_confined g (adel g)); try done; [intros o; by apply adel_none|apply (sound_meta n); by eapply Hb]. }
  assert (in_place (acmd g) = true -> (forall bp, visit (aarea g) (invert g) true bp -> whole a inv bp) ->
    exists m1 l, run_ok E g W main input m1 l /\ near E a inv main m1) as Hwide.
  { intros Hi Hs. destruct (local_next E W g main input n HF Hk Hi Hn Hb) as (m1 & l & Run & [Hno He] & _).
    exists m1, l. split; [done|]. split; [done|]. intros k bp x Hbp Hx.
    destruct (decide (visitb (aarea g) (invert g) bp = true)) as [Hv|Hv]; [left; by apply Hs, visitb_iff|right].
    destruct (He k bp x Hbp Hx) as (y & Hy & H). exists y. split; [done|].
    destruct (deserialize E x) as [b|] eqn:Ex; [|done]. destruct H as (b' & Hd & HA). exists b'. split; [done|].
    assert (forall i, 0 <= i < 4096 -> ~ selected (aarea g) (invert g) (abs_pos bp i)) as Hun.
    { intros i Hii Hsi. apply Hv, visitb_iff. exists (abs_pos bp i). split; [by apply index_inside|done]. }
    assert (sound n b) as Hsb by (by eapply Hb). split.
    - apply HA.
    - rewrite (acted_timers _ _ _ _ _ HA). apply filter_all. intros t Ht. unfold stays. destruct (acmd g); try done.
      intros [H _]. apply (Hun (tpos t)); [|done].
      pose proof (sound_timers n b Hsb) as Hti. unfold timers_in in Hti. rewrite Forall_forall in Hti. by apply Hti.
    - rewrite (acted_objects _ _ _ _ _ HA). apply filter_all. intros o _. unfold adel, cdel. destruct (acmd g); try done.
      apply not_true_is_false in Hv. by rewrite Hv.
    - apply (acted_meta _ _ _ _ _ HA). by apply (sound_meta n).
    - intros i Hii _. eapply acted_name; [exact HA|done|]. by apply Hun. }
  destruct (acmd g) eqn:Hc; try done; try (by apply Hplace); try (by apply Hwide).
  - destruct Hs2 as [[c Ea] [off Eo]]. rewrite Ea, Eo in Hsel.
    eapply (copies_near E W g main input main (Some c) off); [done|exact Hsel|].
    eapply clone_run; try done. by apply roomy_7280; apply Hso.
  - destruct (delblocks_run E W g main input _ HS Hc) as (m1 & Run & Hno & He). eexists m1, _. split; [exact Run|].
    split; [done|]. intros k bp x Hbp Hx. destruct (He k bp Hbp) as [H1 H2].
    pose proof (area_ok_args g (fair_supplied _ _ _ _ HF) (fair_legal _ _ _ _ HF)) as Ha.
    destruct (decide (wholeb (aarea g) (invert g) bp = true)) as [Hw|Hw].
    + apply wholeb_iff in Hw; [|apply Hbp|done]. left. intros q Hq. by apply Hsel, Hw.
    + apply not_true_is_false in Hw. apply wholeb_false in Hw; [|apply Hbp|done].
      right. exists x. split; [by rewrite H2|].
      destruct (deserialize E x) as [b|] eqn:Ex; [|done]. exists b. split; [done|].
      apply state_refl. apply (sound_meta n). by eapply Hb.
  - specialize (Hre eq_refl). destruct (offset g) as [off|] eqn:Eo; [|done]. cbn [default] in Hre, Hsel.
    eapply (copies_near E W g main input input (aarea g) off); [done|exact Hsel|].
    eapply offset_run; try done. apply roomy_7280; apply Hso; auto.
  - eexists main, _. split; [apply vacuum_run; try done; apply HF|]. split; [done|]. intros k bp x Hbp Hx. right. exists x.
    split; [done|]. destruct (deserialize E x) as [b|] eqn:Ex; [|done]. exists b. split; [done|].
    apply state_refl. apply (sound_meta n). by eapply Hb.
Qed.

Lemma restore E W1 W2 g g2 main input n : fair E W1 g input -> fair E W2 g2 main ->
  acmd g2 = COverlay -> default (V3 0 0 0) (offset g2) = V3 0 0 0 ->
  4095 <= n <= 7280 -> blocks E main (healthy n) -> (acmd g = COverlay -> blocks E input (healthy n)) ->
  all_generated E main -> restorable g -> covers g g2 ->
  exists m1 m2, restored E W1 W2 g g2 main input m1 m2 /\ same_contents E main m2.
Proof.
  intros F1 F2 Hc Ho Hn Hb Hib Hgen Hre Hsel. pose proof (fair_input _ _ _ _ F2) as Hk.
  destruct (first_near E W1 g g2 main input n) as (m1 & l1 & Run1 & Hnear); try done.
  destruct (run_next E W1 g main input n F1 Hk Hn Hb Hib) as (m & l & Run & _ & Hk1 & Hb1).
  destruct (run_ok_fun _ _ _ _ _ _ _ _ _ Run1 Run) as [<- _].
  destruct (restore_run E W2 g2 main m1 n) as (m2 & l2 & Run2 & Hsame); try done.
  { intros k x b Hx Hd. apply (sound_mono (n + growth g)); [|by eapply Hb1]. unfold growth. destruct (acmd g); lia. }
  exists m1, m2. split; [|done]. by exists l1, l2.
Qed.

(** Without an area, every block of the backup is back as it was. *)
Lemma restore_all E W g main m1 : fair E W g main -> acmd g = COverlay -> default (V3 0 0 0) (offset g) = V3 0 0 0 ->
  aarea g = None -> keys_ok m1 -> roomy E g m1 main -> all_generated E main ->
  exists m2 l, run_ok E g W m1 main m2 l /\
    forall k, m2 !! k = match main !! k with Some x => Some x | None => m1 !! k end.
Proof.
  intros HF Hc Ho Ha Hk1 Hr Hgen. pose proof (fair_input _ _ _ _ HF) as Hk.
  destruct (overlay_run E W g m1 main from_block_key) as (m2 & f & Run & _ & K & O); try done; [by eapply fair_setting|].
  eexists m2, _. split; [exact Run|]. intros k. destruct (main !! k) as [x|] eqn:Hx; [|by apply K].
  destruct (Hk k ltac:(by eexists)) as [bp Hbp]. destruct (O k bp x Hbp Hx) as (A & _). apply A; [|by eapply Hgen].
  intros q _. rewrite Ha. done.
Qed.

(** ** Copies onto the same place *)
Lemma overlay_self E W g main n : fair E W g main -> acmd g = COverlay -> default (V3 0 0 0) (offset g) = V3 0 0 0 ->
  n <= 7280 -> blocks E main (sound n) ->
  exists m l, run_ok E g W main main m l /\ same_contents E main m.
Proof.
  intros HF Hc Ho Hn Hb. pose proof (fair_input _ _ _ _ HF) as Hk.
  assert (blocks E main (sound 7280)) as Hb7 by (intros k x b Hx Hd; apply (sound_mono n); [lia|]; by eapply Hb).
  destruct (overlay_run E W g main main from_block_key) as (m & f & Run & _ & K & O); try done;
    [by eapply fair_setting|by apply roomy_7280|].
  eexists m, _. split; [exact Run|]. intros k. destruct (main !! k) as [x|] eqn:Hx; [|by rewrite (K k Hx), Hx].
  destruct (Hk k ltac:(by eexists)) as [bp Hbp]. destruct (O k bp x Hbp Hx) as (A & B & C & D). rewrite Hx in *.
  pose proof (area_ok_args g (fair_supplied _ _ _ _ HF) (fair_legal _ _ _ _ HF)) as Ha.
  destruct (decide (claims_generated E x)) as [Hcl|Hcl].
  - destruct (decide (wholeb (aarea g) (invert g) bp = true)) as [Hw|Hw].
    { apply wholeb_iff in Hw; [|apply Hbp|done]. rewrite A by done. by left. }
    apply not_true_is_false in Hw. apply wholeb_false in Hw; [|apply Hbp|done].
    destruct (decide (visitb (aarea g) (invert g) bp = true)) as [Hv|Hv].
    + apply visitb_iff in Hv as (q & Hq & Hs).
      specialize (D Hw ltac:(intros Hnn; by apply (Hnn q))) as [_ D]. specialize (D Hcl).
      destruct (deserialize E x) as [b|] eqn:Ex; [|rewrite D; by left]. destruct D as (z & b' & -> & Hd' & HM).
      assert (meta_in b) as Hm by (apply (sound_meta n); by eapply Hb).
      right. exists b, b'. split; [done|]. split; [done|]. eapply mixed_alike; [done|by apply state_refl|done].
    + rewrite C; [by left|]. intros q Hq Hs; apply Hv, visitb_iff; by exists q.
  - destruct (decide (wholeb (aarea g) (invert g) bp = true)) as [Hw|Hw].
    { apply wholeb_iff in Hw; [|apply Hbp|done]. rewrite B by done. by left. }
    apply not_true_is_false in Hw. apply wholeb_false in Hw; [|apply Hbp|done].
    destruct (decide (visitb (aarea g) (invert g) bp = true)) as [Hv|Hv].
    + apply visitb_iff in Hv as (q & Hq & Hs).
      specialize (D Hw ltac:(intros Hnn; by apply (Hnn q))) as [D _]. rewrite D by done. by left.
    + rewrite C; [by left|]. intros q Hq Hs; apply Hv, visitb_iff; by exists q.
Qed.

Lemma clone_self E W g main input pos : setting E W g main pos -> acmd g = CClone -> offset g = Some (V3 0 0 0) ->
  roomy E g main main -> exists m l, run_ok E g W main input m l /\ same_contents E main m.
Proof.
  intros HS Hc Eo Hr. pose proof (set_supplied _ _ _ _ _ HS) as [_ Hs2]. rewrite Hc in Hs2. destruct Hs2 as [[a Ea] _].
  destruct (clone_run E W g main input pos HS a (V3 0 0 0) Hc Ea Eo Hr) as (m & f & Run & _ & Hno & He).
  destruct Hr as (n & n2 & _ & _ & Hb).
  eexists m, _. split; [exact Run|]. intros k. destruct (main !! k) as [x|] eqn:Hx; [|by rewrite (Hno k Hx)].
  pose proof (set_keys _ _ _ _ _ HS k ltac:(by eexists)) as Hbp. destruct (He k _ x Hbp Hx) as (y & -> & H).
  destruct (deserialize E x) as [b|] eqn:Ex; [|left; congruence]. destruct H as (Hu & b' & Hd & _ & HR).
  destruct HR as [Hng|(HR & _ & HN)]; [rewrite Hu by (by left); by left|].
  right. exists b, b'. split; [done|]. split; [done|]. destruct (rest_parts _ _ HR) as (S1 & S2 & S3 & S4).
  apply state_alike; try done.
  { apply meta_norm. apply (sound_meta n2). by eapply Hb. }
  intros i Hi. symmetry. apply same_state; [by apply shell_version|]. apply dec_stable. intros Hn.
  destruct (HN i Hi) as [H1 H2]. apply Hn, H2. intros (Hsel & sb & j & Hf). apply Hn.
  pose proof Hf as (bp' & _ & (k' & x' & Hk' & Hx' & Hd' & _) & Hj & Hp).
  assert (bp' = pos k /\ j = i) as [-> ->].
  { assert (minus (abs_pos (pos k) i) (V3 0 0 0) = abs_pos (pos k) i) as Hz.
    { unfold minus. destruct (abs_pos (pos k) i). cbn. f_equal; lia. }
    rewrite Hz in Hp. destruct (abs_pos_block bp' j Hj) as [P1 P2]. destruct (abs_pos_block (pos k) i Hi) as [P3 P4].
    rewrite Hp in P1, P2. split; congruence. }
  assert (k' = k) as -> by (destruct Hk' as [_ ->], Hbp as [_ Hb']; congruence).
  assert (sb = b) as -> by congruence. by apply H1.
Qed.
