(** Proofs of what stays true of a map from run to run *)
From Verif Require Import CodecProofs BlockProofs UtilsProofs QueryProofs ThreadProofs BodyProofs EditProofs NodeProofs MetaProofs
  ObjProofs InvProofs WholeProofs ToyRun SpatialProofs ArgProofs MapProofs MixProofs FragProofs CopyProofs CopyRun OverlayRun CmdFacts CopyFacts SpecNodes SpecKeep Spec.

(** ** One block *)
Lemma healthy_up n m c : n <= m -> healthy n c -> healthy m c.
Proof. intros Hm [[H1 H2 H3 H4] ? ?]. split; [|done..]. split; [done| |done..]. intros i v Hi. apply H2 in Hi. simpl in *. lia. Qed.

Lemma kept_inv v m m' : kept v m = Some m' -> inv m' = inv m.
Proof. unfold kept. case_decide; [done|]. intros [= <-]. by destruct (28 <=? v). Qed.
Lemma norm_entry b i m : metadata (norm b) !! i = Some m -> exists m0, metadata b !! i = Some m0 /\ inv m0 = inv m.
Proof.
  change (metadata (norm b)) with (norm_metadata (version b) (metadata b)). rewrite norm_lookup.
  destruct (metadata b !! i) as [m0|]; [|done]. simpl. intros Hk. exists m0. split; [done|]. by apply kept_inv in Hk.
Qed.

Section block.
  Context (n d : Z) (b b' : block) (Hd0 : 0 <= d) (Hb : healthy n b) (Hn : 4095 <= n) (Hcan : norm b' = b').

  Lemma healthy_kept : named b' -> unique_names b' -> ids_upto (n + d) (nimap b') ->
    Forall (fun t => 0 <= tpos t < 4096) (timers b') ->
    (forall i m, metadata b' !! i = Some m -> 0 <= i < 4096 /\ plain_inv (inv m)) ->
    healthy (n + d) b'.
  Proof using.
    intros Hnm Hu Hi Ht Hm. split; [split|..]; try done.
    - intros i m H. exact (proj1 (Hm i m H)).
    - intros i m H. exact (proj2 (Hm i m H)).
  Qed.

  Lemma healthy_entry i m : metadata (norm b) !! i = Some m -> 0 <= i < 4096 /\ plain_inv (inv m).
  Proof using Hb.
    intros (m0 & Hm0 & <-)%norm_entry. split; [by apply (sound_meta _ _ (hl_sound _ _ Hb)) in Hm0|].
    by apply (hl_inv _ _ Hb) in Hm0.
  Qed.

  Lemma healthy_renamed P (HP : forall i, Decision (P i)) node : renamed d P node b b' -> healthy (n + d) b'.
  Proof using Hd0 Hb Hn Hcan.
    intros (Hs & Hnm & [Hu Hi] & _). apply healthy_kept; [done| | | |].
    - apply Hu, Hb.
    - apply Hi; [done|]. apply Hb.
    - replace (timers b') with (timers b); [apply Hb|]. symmetry. exact (f_equal timers Hs).
    - intros i m Hm. rewrite <-Hcan in Hm. rewrite Hs in Hm. by apply healthy_entry in Hm.
  Qed.

  (** Names are untouched *)
  Lemma healthy_same_names : nodes (ndata b') = nodes (ndata b) -> nimap b' = nimap b ->
    Forall (fun t => 0 <= tpos t < 4096) (timers b') ->
    (forall i m, metadata b' !! i = Some m -> 0 <= i < 4096 /\ plain_inv (inv m)) ->
    healthy (n + d) b'.
  Proof using Hd0 Hb.
    intros Hnd Hnm Ht Hm. apply healthy_kept; try done.
    - unfold named. rewrite Hnd, Hnm. apply Hb.
    - unfold unique_names. rewrite Hnm. apply Hb.
    - rewrite Hnm. intros i v Hi. apply (sound_ids _ _ (hl_sound _ _ Hb)) in Hi. simpl in *. lia.
  Qed.

  Lemma healthy_repainted P (HP : forall i, Decision (P i)) v : repainted P v b b' -> healthy (n + d) b'.
  Proof using Hd0 Hb Hcan.
    intros (Hs & Hnd & _ & _). apply healthy_same_names; [done| | |].
    - exact (f_equal nimap Hs).
    - replace (timers b') with (timers b); [apply Hb|]. symmetry. exact (f_equal timers Hs).
    - intros i m Hm. rewrite <-Hcan in Hm. rewrite Hs in Hm. by apply healthy_entry in Hm.
  Qed.

  Lemma healthy_metadata upd : metadata_changed upd b b' ->
    (forall i m m', metadata (norm b) !! i = Some m -> upd i m = Some m' -> plain_inv (inv m')) -> healthy (n + d) b'.
  Proof using Hd0 Hb Hcan.
    intros (md & Hs & Hmd) Hp. apply healthy_same_names.
    - exact (f_equal (fun b => nodes (ndata b)) Hs).
    - exact (f_equal nimap Hs).
    - replace (timers b') with (timers b); [apply Hb|]. symmetry. exact (f_equal timers Hs).
    - intros i m Hm. rewrite <-Hcan in Hm. rewrite Hs in Hm. cbn [metadata with_metadata] in Hm. rewrite Hmd in Hm.
      destruct (metadata (norm b) !! i) as [m0|] eqn:Hm0; [|done]. simpl in Hm.
      destruct (upd i m0) as [m1|] eqn:Hu; [|done]. simpl in Hm. case_decide; [done|]. injection Hm as ->.
      split; [exact (proj1 (healthy_entry i m0 Hm0))|]. by apply (Hp i m0 m).
  Qed.

  Lemma healthy_timers (P : node_timer -> Prop) (HP : forall t, Decision (P t)) :
    norm b' = with_timers (norm b) (filter P (timers b)) -> healthy (n + d) b'.
  Proof using Hd0 Hb Hcan.
    intros Hs. apply healthy_same_names.
    - exact (f_equal (fun b => nodes (ndata b)) Hs).
    - exact (f_equal nimap Hs).
    - replace (timers b') with (filter P (timers b)); [|symmetry; exact (f_equal timers Hs)].
      apply Forall_forall. intros t [_ Ht]%elem_of_list_filter.
      pose proof (sound_timers _ _ (hl_sound _ _ Hb)) as H. by eapply Forall_forall in H.
    - intros i m Hm. rewrite <-Hcan in Hm. rewrite Hs in Hm. by apply healthy_entry in Hm.
  Qed.

  Lemma healthy_objects os : norm b' = with_objects (norm b) os -> healthy (n + d) b'.
  Proof using Hd0 Hb Hcan.
    intros Hs. apply healthy_same_names.
    - exact (f_equal (fun b => nodes (ndata b)) Hs).
    - exact (f_equal nimap Hs).
    - replace (timers b') with (timers b); [apply Hb|]. symmetry. exact (f_equal timers Hs).
    - intros i m Hm. rewrite <-Hcan in Hm. rewrite Hs in Hm. by apply healthy_entry in Hm.
  Qed.

  Lemma same_node_plain i m c j k : metadata b' !! i = Some m -> same_node b' i c j -> healthy k c -> plain_inv (inv m).
  Proof using Hcan.
    intros Hm (_ & _ & _ & Hs) Hc. rewrite Hm in Hs. simpl in Hs.
    assert (kept (version b') m = Some m) as Hk.
    { rewrite <-Hcan in Hm. change (metadata (norm b')) with (norm_metadata (version b') (metadata b')) in Hm.
      rewrite norm_lookup in Hm. destruct (metadata b' !! i) as [m0|] eqn:E0; [|done]. simpl in Hm.
      pose proof (kept_idem (version b') (Some m0)) as Hi. simpl in Hi. rewrite Hm in Hi. done. }
    rewrite Hk in Hs. destruct (metadata c !! j) as [m0|] eqn:E0; [|done]. simpl in Hs. symmetry in Hs.
    apply kept_inv in Hs as ->. by apply (hl_inv _ _ Hc) in E0.
  Qed.

  Lemma healthy_pasted E src a off bp k : ext_ok E -> blocks E src (healthy k) ->
    pasted E src a off bp b b' -> healthy (n + d) b'.
  Proof using Hd0 Hb Hn Hcan.
    intros HE Hsrc ((Hs & Hnm & Hmi) & [Hu Hi] & Hnode). apply healthy_kept; [done| | | |].
    - apply Hu, Hb.
    - pose proof (Hi n Hn (sound_ids _ _ (hl_sound _ _ Hb))) as Hi'. rewrite Z.add_0_r in Hi'.
      intros id v Hid. apply Hi' in Hid. simpl in *. lia.
    - replace (timers b') with (timers b); [apply Hb|]. symmetry. exact (f_equal timers Hs).
    - intros i m Hm. pose proof (Hmi i m Hm) as Hr. split; [done|]. destruct (Hnode i Hr) as [H1 H2].
      set (p := minus (abs_pos bp i) off) in *. destruct (src_at E src (block_of p)) as [sb|] eqn:Esb.
      + destruct (decide (selected a false p)) as [Hsel|Hsel].
        * assert (found E src p sb (idx_in p)) as Hf by by apply found_iff.
          apply (same_node_plain i m sb (idx_in p) k); [done|by apply H1|].
          destruct Hf as (sp & _ & (ks & sx & _ & Hsx & Hsd & _) & _). by apply (Hsrc ks sx sb).
        * apply (same_node_plain i m b i n); [done| |done]. apply H2. tauto.
      + apply (same_node_plain i m b i n); [done| |done]. apply H2. intros (_ & sb & j & Hf).
        apply found_iff in Hf as [Hf _]; [|done]. congruence.
  Qed.

  Lemma healthy_mixed a inv bp sb k : node_lens b' -> healthy k sb -> mixed a inv bp sb b b' -> healthy (n + d) b'.
  Proof using Hd0 Hb Hn Hcan.
    intros Hl Hsb ((Hs & Hnm & Hmi) & Ht & _ & Hnode). apply healthy_kept; [done| | | |].
    - exact (proj2 (proj2 Ht)).
    - intros id v Hid. apply (tidy_small b' Hnm Hl Ht) in Hid. simpl in *. lia.
    - replace (timers b') with (timers (if inv then sb else b)); [|symmetry; exact (f_equal timers Hs)].
      destruct inv; [apply Hsb|apply Hb].
    - intros i m Hm. pose proof (Hmi i m Hm) as Hr. split; [done|]. specialize (Hnode i Hr).
      case_decide; [by eapply same_node_plain|by eapply same_node_plain].
  Qed.
End block.

(** ** Maps *)
Lemma effect_keys E main main' u R : keys_ok main -> effect E main main' u R -> keys_ok main'.
Proof.
  intros Hk [Hn _] k [y Hy]. apply Hk. destruct (main !! k) eqn:Em; [by eexists|]. by rewrite (Hn k Em) in Hy.
Qed.
Lemma effect_healthy E main main' u R n d : 0 <= d -> keys_ok main -> effect E main main' u R -> blocks E main (healthy n) ->
  (forall k bp x b b', block_at k bp -> main !! k = Some x -> deserialize E x = Ok b ->
     healthy n b -> norm b' = b' -> (u bp b -> b' = b) -> R bp b b' -> healthy (n + d) b') ->
  blocks E main' (healthy (n + d)).
Proof.
  intros Hd0 Hk [Hn He] Hb HR k y b' Hy Hd. destruct (main !! k) as [x|] eqn:Hx; [|by rewrite (Hn k Hx) in Hy].
  destruct (Hk k ltac:(by eexists)) as [bp Hbp]. destruct (He k bp x Hbp Hx) as (y' & Hy' & H).
  assert (y' = y) as -> by congruence. destruct (deserialize E x) as [b|e] eqn:Ex.
  - destruct H as (Hu & b1 & Hd1 & Hc & HR1). assert (b1 = b') as -> by congruence.
    pose proof (Hb k x b Hx Ex) as Hh. destruct Hc as [Hun|Hc].
    + rewrite (Hu Hun) in Hd. assert (b' = b) as -> by congruence. eapply healthy_up; [|done]. lia.
    + apply (HR k bp x b b'); try done. intros Hu'. rewrite (Hu Hu') in Hd. congruence.
  - subst y. congruence.
Qed.

Definition next (E : ext) (W : world) (g : args) (main input : mapdata) (n d : Z) : Prop :=
  exists main' l, run_ok E g W main input main' l /\ last l = Some (LInfo, MDone) /\
    keys_ok main' /\ blocks E main' (healthy (n + d)).

Lemma edits_next E W g main input names m u R n d : 0 <= d -> keys_ok main -> blocks E main (healthy n) ->
  edits E W g main input names m u R ->
  (forall k bp x b b', block_at k bp -> main !! k = Some x -> deserialize E x = Ok b ->
     healthy n b -> norm b' = b' -> R bp b b' -> healthy (n + d) b') ->
  next E W g main input n d.
Proof.
  intros Hd0 Hk Hb (main' & f & Hrun & _ & He) HR. exists main', (warnings g ++ [(LInfo, m)] ++ closing f). split; [done|].
  split; [rewrite app_assoc; apply closing_last|]. split; [by eapply effect_keys|].
  eapply effect_healthy; [exact Hd0|done..|]. intros k bp x b b' H1 H2 H3 H4 H5 _. by apply (HR k bp x).
Qed.
Lemma copies_next E W g main input src a off n k d : 0 <= d -> ext_ok E -> keys_ok main -> blocks E main (healthy n) -> 4095 <= n ->
  blocks E src (healthy k) -> copies E W g main input src a off -> next E W g main input n d.
Proof.
  intros Hd0 HE Hk Hb Hn Hsrc (main' & f & Hrun & _ & He). exists main', (warnings g ++ closing f). split; [done|].
  split; [apply closing_last|]. split; [by eapply effect_keys|].
  eapply effect_healthy; [exact Hd0|done..|]. intros k' bp x b b' H1 H2 H3 H4 H5 Hu [Hg|HP].
  - rewrite Hu by by left. eapply healthy_up; [|done]. lia.
  - by eapply healthy_pasted.
Qed.
Lemma overlays_next E W g main input n d : 0 <= d -> ext_ok E -> keys_ok main -> keys_ok input -> area_ok (aarea g) ->
  blocks E main (healthy n) -> blocks E input (healthy n) -> 4095 <= n -> overlays E W g main input -> next E W g main input n d.
Proof.
  intros Hd0 HE Hk Hik Ha Hb Hib Hn (main' & f & Hrun & _ & Hno & He). exists main', (warnings g ++ closing f). split; [done|].
  split; [apply closing_last|].
  assert (forall m k y b, blocks E m (healthy n) -> m !! k = Some y -> deserialize E y = Ok b -> healthy (n + d) b) as Hup.
  { intros m k y b Hm Hy Hd. apply (healthy_up n); [lia|]. by eapply Hm. }
  assert (forall k, is_Some (input !! k) -> exists bp x, input !! k = Some x /\ block_at k bp /\
    overlaid E (aarea g) (invert g) bp x (main !! k) (main' !! k)) as Hin.
  { intros k [x Hx]. destruct (Hik k ltac:(by eexists)) as [bp Hbp]. exists bp, x. eauto. }
  split.
  - intros k [y Hy]. destruct (input !! k) as [x|] eqn:Hx.
    + apply Hik. by eexists.
    + rewrite (Hno k Hx) in Hy. apply Hk. by eexists.
  - intros k y b' Hy Hd. destruct (input !! k) as [x|] eqn:Hx.
    2:{ rewrite (Hno k Hx) in Hy. by eapply (Hup main). }
    destruct (Hin k ltac:(by eexists)) as (bp & x' & Hx' & Hbp & H1 & H2 & H3 & H4). assert (x' = x) as -> by congruence.
    destruct (block_at_key k bp Hbp) as [Hr _].
    assert (forall o, main' !! k = o -> o = Some y) as Ho by congruence.
    destruct (wholeb (aarea g) (invert g) bp) eqn:Ew.
    + apply wholeb_iff in Ew; [|done..]. destruct (is_valid_generated E x) eqn:Eg.
      * apply claims_iff in Eg. rewrite (H1 Ew Eg) in Hy. injection Hy as ->. by eapply (Hup input).
      * apply claims_false in Eg. rewrite (H2 Ew Eg) in Hy. by eapply (Hup main).
    + apply wholeb_false in Ew; [|done..].
      destruct (visitb (aarea g) (invert g) bp) eqn:Hv.
      * apply visitb_iff, visit_none in Hv; [|done..]. specialize (H4 Ew Hv). destruct (main !! k) as [z|] eqn:Hz; [|congruence].
        destruct H4 as [N1 N2]. destruct (is_valid_generated E z) eqn:Eg.
        -- apply claims_iff in Eg. specialize (N2 Eg).
           destruct (deserialize E x) as [sb|] eqn:Ex; [|assert (z = y) as -> by congruence; by eapply (Hup main)].
           destruct (deserialize E z) as [b|] eqn:Ez; [|assert (z = y) as -> by congruence; by eapply (Hup main)].
           destruct N2 as (z1 & b1 & Hz1 & Hd1 & Hmix). assert (z1 = y) as -> by congruence.
           assert (b1 = b') as -> by congruence.
           eapply healthy_mixed; [exact Hd0|by eapply (Hb k z)|done| | |by eapply (Hib k x)|exact Hmix].
           ++ apply Hmix.
           ++ apply wf_lens. by eapply deserialize_wf.
        -- apply claims_false in Eg. rewrite (N1 Eg) in Hy. injection Hy as ->. by eapply (Hup main).
      * assert (none (aarea g) (invert g) bp) as Hnone.
        { intros q Hq Hs. apply not_true_iff_false in Hv. apply Hv, visitb_iff. by exists q. }
        rewrite (H3 Hnone) in Hy. by eapply (Hup main).
Qed.

(** ** Runs *)
Lemma fair_setting E W g main input : fair E W g input -> keys_ok main -> setting E W g main from_block_key.
Proof.
  intros [] Hk. split; try done. intros k [bp Hbp]%Hk. by destruct (block_at_key k bp Hbp) as [_ ->].
Qed.

Lemma run_next E W g main input n : fair E W g input -> keys_ok main -> 4095 <= n <= 7280 ->
  blocks E main (healthy n) -> (acmd g = COverlay -> blocks E input (healthy n)) -> next E W g main input n (growth g).
Proof.
  intros HF Hk Hn Hb Hib. pose proof (fair_setting E W g main input HF Hk) as HS.
  assert (forall m c, c <= 65533 -> n <= c -> blocks E m (healthy n) -> blocks E m (sound c)) as Hsound.
  { intros m c _ Hc Hm k x b Hx Hd. apply (sound_mono n); [lia|]. by eapply Hm. }
  assert (blocks E main unique_names) as Hu by (intros k x b Hx Hd; by eapply Hb).
  assert (blocks E main meta_in) as Hmi by (intros k x b Hx Hd; apply (sound_meta n); by eapply Hb).
  assert (blocks E main timers_in) as Hti by (intros k x b Hx Hd; apply (sound_timers n); by eapply Hb).
  pose proof HF as [HE Hfull HW HO Hsup Hleg Hrdy Hp2 [Hfit Hval] Htame Hik].
  pose proof (area_ok_args g Hsup Hleg) as Ha.
  pose proof Hsup as [_ Hs2]. unfold growth. destruct (acmd g) eqn:Hc.
  - (* clone *)
    destruct Hs2 as [[a Ea] [off Eo]]. eapply (copies_next E W g main input main (Some a) off n n 0); try done; [lia|].
    eapply clone_run; try done. apply roomy_7280; by apply Hsound; [lia..|].
  - (* deleteblocks *)
    destruct (delblocks_run E W g main input _ HS Hc) as (main' & Hrun & Hno & He).
    exists main', (warnings g ++ closing 0). split; [done|]. split; [apply closing_last|].
    assert (forall k y, main' !! k = Some y -> main !! k = Some y) as Hsub.
    { intros k y Hy. destruct (main !! k) as [x|] eqn:Hx; [|by rewrite (Hno k Hx) in Hy].
      destruct (Hk k ltac:(by eexists)) as [bp Hbp]. destruct (He k bp Hbp) as [H1 H2].
      rewrite <-Hx. apply dec_stable. intros Hne. destruct (Hne). rewrite <-H2; [done|]. intros Hv.
      by rewrite (H1 Hv) in Hy. }
    split; [intros k [y Hy%Hsub]; apply Hk; by eexists|].
    intros k y b Hy%Hsub Hd. apply (healthy_up n); [lia|]. by eapply Hb.
  - (* deletemeta *)
    eapply edits_next; [done..|apply (delmeta_run E W g main input from_block_key); try done|].
    cbv beta. intros k bp x b b' _ _ _ Hh Hcan HR. eapply healthy_metadata; [done..|].
    intros i m m' Hm. unfold drop_chosen. case_decide; [done|]. intros [= <-]. by eapply healthy_entry in Hm as [_ ?].
  - (* deleteobjects *)
    eapply edits_next; [done..|apply (delobj_fn E W g main input from_block_key); try done|].
    cbv beta. intros k bp x b b' _ _ _ Hh Hcan HR. by eapply healthy_objects.
  - (* deletetimers *)
    eapply edits_next; [done..|apply (deltimers_run E W g main input from_block_key); try done|].
    cbv beta. intros k bp x b b' _ _ _ Hh Hcan HR. by eapply healthy_timers.
  - (* fill *)
    destruct Hs2 as [[a Ea] [node Eo]].
    destruct (fill_effect E W g main input from_block_key a node) as [c He]; try done; [by apply Hfit|by apply Hsound; [lia..|]|].
    eapply edits_next; [done..|exact He|]. cbv beta. intros k bp x b b' _ _ _ Hh Hcan HR. eapply healthy_renamed; [lia|done|lia|done..].
  - (* replacenodes *)
    destruct Hs2 as [[old Ea] [node Eo]].
    eapply edits_next; [done..|apply (replace_run E W g main input from_block_key old node); try done; [by apply Hfit|by apply Hsound; [lia..|]]|].
    cbv beta. intros k bp x b b' _ _ _ Hh Hcan HR. eapply healthy_renamed; [lia|done|lia|done..].
  - (* replaceininv *)
    destruct Hs2 as [item Ei].
    assert (forall m, (if adelete g then None else Some (default item (new_item g))) = Some m ->
      plain_name m /\ x0a ∉ m /\ x20 ∉ m) as Hnew.
    { intros m H. destruct (adelete g); [done|]. injection H as <-.
      assert (name_ok (default item (new_item g)) /\ plain_name (default item (new_item g))) as [Hok Hpl].
      { destruct Hleg as (_ & _ & _ & Hnm & _). rewrite Forall_forall in Hnm. unfold all_names in Hnm.
        destruct (new_item g) as [m|] eqn:Em; cbn [default]; (split; [apply Hnm|apply Htame; by auto]).
        - cbn. set_solver.
        - rewrite Ei. cbn. set_solver. }
      apply name_ok_chars in Hok as (_ & ? & ?). done. }
    eapply edits_next; [done..|apply (replinv_run E W g main input from_block_key item); try done|].
    + intros m Hm. by apply Hnew.
    + intros k bp x b i m _ Hx Hd Hm _. pose proof (Hb k x b Hx Hd) as Hh. by apply (hl_inv _ _ Hh) in Hm.
    + cbv beta. intros k bp x b b' _ _ Hd Hh Hcan HR. eapply healthy_metadata; [done..|].
      intros i m m' Hm. unfold change_chosen. intros [= <-]. pose proof (healthy_entry n b Hh i m Hm) as [_ Hpl].
      case_decide; [|done]. cbn [inv]. apply rewrite_plain; [|done|done].
      destruct (norm_entry b i m Hm) as (m0 & Hm0 & <-).
      pose proof (proj2 (wf_md b (deserialize_wf E x b Hd)) i m0 Hm0) as [_ (_ & _ & ?)]. done.
  - (* overlay *)
    specialize (Hib eq_refl). destruct (decide (default (V3 0 0 0) (offset g) = V3 0 0 0)) as [Hz|Hz].
    + eapply overlays_next; try done; [lia|]. eapply overlay_run; try done. apply roomy_7280; by apply Hsound; [lia..|].
    + destruct (offset g) as [off|] eqn:Eo; [|done]. eapply (copies_next E W g main input input (aarea g) off n n 0); try done; [lia|].
      eapply offset_run; try done. apply roomy_7280; by apply Hsound; [lia..|].
  - (* setmetavar *)
    destruct Hs2 as [key Ek].
    eapply edits_next; [done..|apply (setvar_run E W g main input from_block_key key); try done|].
    cbv beta. intros k bp x b b' _ _ _ Hh Hcan HR. eapply healthy_metadata; [done..|].
    intros i m m' Hm. unfold change_chosen. intros [= <-]. pose proof (healthy_entry n b Hh i m Hm) as [_ Hpl].
    by case_decide.
  - (* setparam2 *)
    destruct (Hp2 eq_refl) as [v Ev].
    eapply edits_next; [done..|apply (param2_run E W g main input from_block_key v); try done|].
    cbv beta. intros k bp x b b' _ _ _ Hh Hcan HR. by eapply healthy_repainted.
  - (* vacuum *)
    eexists main, _. split; [by apply vacuum_run|]. split; [by rewrite last_app|]. split; [done|].
    intros k x b Hx Hd. apply (healthy_up n); [lia|]. by eapply Hb.
Qed.

Lemma growths_nonneg runs : 0 <= growths runs.
Proof. induction runs as [|[[W g] i] runs IH]; [done|]. cbn [growths]. unfold growth. destruct (acmd g); lia. Qed.

Lemma session_keeps E runs n : forall main, 4095 <= n -> n + growths runs <= 7280 ->
  keys_ok main -> blocks E main (healthy n) ->
  Forall (fun '(W, g, input) => fair E W g input /\ blocks E input (healthy n)) runs ->
  exists main', session E runs main main' /\ keys_ok main' /\ blocks E main' (healthy (n + growths runs)).
Proof.
  revert n. induction runs as [|[[W g] input] runs IH]; intros n main Hn Hlen Hk Hb HF.
  - exists main. split; [done|]. split; [done|]. simpl. by rewrite Z.add_0_r.
  - apply Forall_cons in HF as [[Hf Hi] HF']. cbn [growths] in Hlen |- *. pose proof (growths_nonneg runs) as Hg.
    assert (0 <= growth g) as Hg0 by (unfold growth; destruct (acmd g); lia).
    destruct (run_next E W g main input n Hf Hk ltac:(lia) Hb (fun _ => Hi)) as (m & l & Hrun & Hl & Hk' & Hb').
    destruct (IH (n + growth g) m) as (main' & Hs & Hk2 & Hb2); [lia|lia|done|done| |].
    { eapply Forall_impl; [exact HF'|]. intros [[W' g'] input'] [? Hib]. split; [done|].
      intros k x b Hx Hd. apply (healthy_up n); [lia|]. by eapply Hib. }
    exists main'. split; [by exists m, l|]. split; [done|]. by rewrite Z.add_assoc.
Qed.
