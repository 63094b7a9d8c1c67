(** Proofs about runs that are repeated *)
From Verif Require Import CodecProofs BlockProofs UtilsProofs QueryProofs ThreadProofs BodyProofs EditProofs NodeProofs MetaProofs
  ObjProofs InvProofs WholeProofs ToyRun SpatialProofs ArgProofs MapProofs MixProofs FragProofs CopyProofs CopyRun OverlayRun CmdFacts CopyFacts SpecNodes
  KeepProofs OrderProofs SpecAgain Spec.

(** ** Inventories *)
Lemma lines_from_line l acc s : x0a ∉ l -> lines_from acc (l ++ x0a :: s) = (acc ++ l) :: lines_from [] s.
Proof.
  revert acc. induction l as [|c l IH]; intros acc Hl; cbn [app lines_from].
  - rewrite decide_True by done. by rewrite app_nil_r.
  - rewrite decide_False by (intros ->; apply Hl; left). rewrite IH by (intros H; apply Hl; by right).
    by rewrite <-app_assoc.
Qed.
Lemma lines_of_joined ls : Forall (fun l => x0a ∉ l) ls -> lines (joined ls) = ls.
Proof.
  unfold lines. induction 1 as [|l ls Hl _ IH]; [done|]. rewrite joined_cons, lines_from_line by done. by rewrite IH.
Qed.

Lemma without_meta_again rest : without_meta (without_meta rest) = without_meta rest.
Proof.
  assert (x20 ∉ stack_count rest) as Hc.
  { unfold stack_count. destruct rest; [|apply word_no_space]. intros H%elem_of_list_singleton. done. }
  assert (x20 ∉ stack_wear rest) as Hw.
  { assert (x20 ∉ bstr "0") as H0 by (intros H%elem_of_list_singleton; done).
    unfold stack_wear. destruct rest as [|? t]; [done|]. destruct (after_word t); [apply word_no_space|done]. }
  unfold without_meta at 2 3. case_decide as H1.
  - case_decide as H2; [done|]. unfold without_meta. cbn [app stack_count stack_wear].
    destruct (word_all _ Hc) as [-> ->]. cbn [from_option]. by rewrite decide_True, decide_False by done.
  - unfold without_meta. cbn [app stack_count stack_wear].
    destruct (word_app (stack_count rest) (stack_wear rest) Hc) as [-> ->]. cbn [from_option].
    destruct (word_all _ Hw) as [-> _]. by rewrite decide_False by done.
Qed.
Lemma without_meta_form rest : without_meta rest = [] \/ exists t, without_meta rest = x20 :: t.
Proof. unfold without_meta. repeat case_decide; eauto. Qed.

Lemma space_prefix (a b r s : bytes) : x20 ∉ a -> x20 ∉ b -> a ++ r = b ++ s ->
  (r = [] \/ exists t, r = x20 :: t) -> (s = [] \/ exists t, s = x20 :: t) -> a = b /\ r = s.
Proof.
  revert b. induction a as [|c a IH]; intros [|d b] Ha Hb He Hr Hs; simpl in He.
  - done.
  - subst r. destruct Hr as [?|[t [= -> _]]]; [done|]. destruct Hb. left.
  - subst s. destruct Hs as [?|[t [= -> _]]]; [done|]. destruct Ha. left.
  - injection He as -> He. destruct (IH b) as [-> ->]; [..|done]; try done.
    + intros H. apply Ha. by right.
    + intros H. apply Hb. by right.
Qed.

Section inv.
  Context (item : bytes) (new : option bytes) (dm : bool) (Hi : x20 ∉ item) (Hn : forall n, new = Some n -> x0a ∉ n /\ x20 ∉ n).

  Lemma rewritten_stack l rest : stack_rest item (rewrite_line item new dm l) = Some rest -> is_Some (stack_rest item l) ->
    new = Some item /\ exists r, stack_rest item l = Some r /\ rest = if dm then without_meta r else r.
  Proof using Hi Hn.
    unfold rewrite_line. intros Hr [r Hl]. rewrite Hl in Hr. destruct new as [n|].
    - apply stack_rest_Some in Hr as [He Hr]. apply (app_inv_head (bstr "Item ")) in He.
      destruct (space_prefix n item (if dm then without_meta r else r) rest) as [-> <-]; try done; [by apply Hn| |].
      + destruct dm; [apply without_meta_form|]. by apply stack_rest_Some in Hl as [_ ?].
      + eauto.
    - by apply stack_rest_Some in Hr as [? _].
  Qed.
  Lemma rewrite_line_again l : rewrite_line item new dm (rewrite_line item new dm l) = rewrite_line item new dm l.
  Proof using Hi Hn.
    destruct (stack_rest item l) as [r|] eqn:Hl.
    - destruct (stack_rest item (rewrite_line item new dm l)) as [rest|] eqn:Hr.
      + destruct (rewritten_stack l rest Hr) as (Hne & r' & Hl' & ->); [by rewrite Hl|].
        assert (r' = r) as -> by congruence.
        unfold rewrite_line at 1. rewrite Hr, Hne. unfold rewrite_line. rewrite Hl.
        do 2 f_equal. destruct dm; [apply without_meta_again|done].
      + unfold rewrite_line at 1. by rewrite Hr.
    - unfold rewrite_line. by rewrite !Hl.
  Qed.
  Lemma rewritten_none l : new <> Some item -> stack_rest item (rewrite_line item new dm l) = None.
  Proof using Hi Hn.
    intros Hne. destruct (stack_rest item (rewrite_line item new dm l)) as [rest|] eqn:Hr; [|done].
    destruct (stack_rest item l) as [r|] eqn:Hl.
    - destruct (rewritten_stack l rest Hr) as [? _]; [by rewrite Hl|done].
    - unfold rewrite_line in Hr. rewrite Hl in Hr. congruence.
  Qed.

  Context (iv : bytes) (Ht : terminated iv).

  Lemma lines_rewritten : stacks item iv <> 0 ->
    lines (rewrite_inv item new dm iv) = rewrite_line item new dm <$> filter (fun l => l <> []) (lines iv).
  Proof using Hn.
    intros Hs. unfold rewrite_inv. rewrite decide_False by done.
    rewrite <-(lines_of_joined (rewrite_line item new dm <$> _)).
    - f_equal. unfold joined. by rewrite <-list_fmap_compose.
    - apply Forall_fmap, Forall_forall. intros l [_ Hl]%elem_of_list_filter. simpl. apply rewrite_line_nl.
      + pose proof (lines_no_nl iv [] ltac:(intros H%elem_of_nil; done)) as H. by eapply Forall_forall in H.
      + intros n Hn'. by apply Hn.
  Qed.

  Lemma rewrite_nonempty l : l <> [] -> rewrite_line item new dm l <> [].
  Proof using. clear Hn. intros H. unfold rewrite_line. by repeat case_match. Qed.

  Lemma rewrite_inv_again : rewrite_inv item new dm (rewrite_inv item new dm iv) = rewrite_inv item new dm iv.
  Proof using Hi Hn.
    destruct (decide (stacks item iv = 0)) as [Hs|Hs].
    { assert (rewrite_inv item new dm iv = iv) as Hid by (unfold rewrite_inv; by rewrite decide_True).
      by rewrite !Hid. }
    pose proof (lines_rewritten Hs) as Hl. unfold rewrite_inv at 1. case_decide as H0; [done|].
    rewrite Hl. unfold rewrite_inv. rewrite decide_False by done. f_equal.
    rewrite filter_all.
    - rewrite <-list_fmap_compose. apply list_fmap_ext. intros i l _. simpl. by rewrite rewrite_line_again.
    - intros l (l' & -> & [H _]%elem_of_list_filter)%elem_of_list_fmap. by apply rewrite_nonempty.
  Qed.

  Lemma rewrite_inv_stacks : new <> Some item -> stacks item (rewrite_inv item new dm iv) = 0.
  Proof using Hi Hn.
    intros Hne. destruct (decide (stacks item iv = 0)) as [Hs|Hs].
    { unfold rewrite_inv. by rewrite decide_True. }
    unfold stacks. rewrite (lines_rewritten Hs). apply count_of_zero.
    intros l (l' & -> & _)%elem_of_list_fmap [r Hr]. by rewrite rewritten_none in Hr.
  Qed.
End inv.

(** ** Blocks *)
Lemma same_names b b1 a inv names bp i : nodes (ndata b1) = nodes (ndata b) -> nimap b1 = nimap b ->
  chosen a inv names bp b1 i <-> chosen a inv names bp b i.
Proof. intros Hd Hm. unfold chosen, node_name. by rewrite Hd, Hm. Qed.

Lemma renamed_again d P1 P2 {H1 : forall i, Decision (P1 i)} {H2 : forall i, Decision (P2 i)} node b b1 b2 :
  renamed d P1 node b b1 -> renamed d P2 node b1 b2 ->
  (forall i, 0 <= i < 4096 -> P2 i -> node_name b1 i = Some node) -> alike b1 b2.
Proof.
  intros _ (S2 & _ & _ & Ep1 & Ep2 & N2) HP. split; [done|]. intros i Hi.
  unfold node_param1, node_param2. rewrite Ep1, Ep2. split; [|done]. rewrite (N2 i Hi).
  case_decide; [by apply HP|done].
Qed.
(** No node that replacenodes looks for is left. *)
Lemma replaced_none d a inv old new bp b b1 i : old <> new -> renamed d (chosen a inv [old] bp b) new b b1 ->
  0 <= i < 4096 -> ~ chosen a inv [old] bp b1 i.
Proof.
  intros Hne (_ & _ & _ & _ & _ & HN) Hi [Hs [?|Hex]]; [done|]. apply Exists_cons in Hex as [Hex|Hex]; [|by inv Hex].
  specialize (HN i Hi). rewrite Hex in HN. case_decide as Hc; [congruence|]. apply Hc. split; [done|]. right.
  by left.
Qed.

Lemma repainted_again a inv names bp v b b1 b2 :
  repainted (chosen a inv names bp b) v b b1 -> repainted (chosen a inv names bp b1) v b1 b2 -> alike b1 b2.
Proof.
  intros (S1 & D1 & _ & Q1) (S2 & D2 & Ep & Q2).
  assert (nimap b1 = nimap b) as M1 by exact (f_equal nimap S1).
  assert (nimap b2 = nimap b1) as M2 by exact (f_equal nimap S2).
  split; [unfold same_but_nodes; by rewrite M2|]. intros i Hi. unfold node_name, node_param1. rewrite D2, M2, Ep.
  split; [done|]. split; [done|]. rewrite (Q2 i Hi), (Q1 i Hi).
  destruct (decide (chosen a inv names bp b1 i)) as [Hc|Hc]; [|done].
  rewrite decide_True; [done|]. by apply (same_names b b1).
Qed.

Lemma metadata_parts upd b b1 : metadata_changed upd b b1 -> ndata b1 = ndata b /\ nimap b1 = nimap b /\
  forall i, metadata (norm b1) !! i = metadata (norm b) !! i ≫= fun m =>
    upd i m ≫= fun m' => if decide (blank m') then None else Some m'.
Proof.
  intros (md & S & Hmd). split; [exact (f_equal ndata S)|]. split; [exact (f_equal nimap S)|].
  intros i. rewrite S. apply Hmd.
Qed.
Lemma metadata_again upd1 upd2 b b1 b2 : metadata_changed upd1 b b1 -> metadata_changed upd2 b1 b2 ->
  (forall i m m', metadata (norm b) !! i = Some m -> upd1 i m = Some m' -> upd2 i m' = Some m') -> alike b1 b2.
Proof.
  intros C1 C2 Hup. apply norm_alike. destruct (metadata_parts _ _ _ C1) as (_ & _ & Hm1).
  destruct C2 as (md & -> & Hmd). assert (md = metadata (norm b1)) as ->; [|by destruct b1].
  apply map_eq. intros i. rewrite Hmd. rewrite !Hm1.
  destruct (metadata (norm b) !! i) as [m|] eqn:Em; simpl; [|done].
  destruct (upd1 i m) as [m'|] eqn:Eu; simpl; [|done]. case_decide; simpl; [done|].
  rewrite (Hup i m m') by done. simpl. by rewrite decide_False.
Qed.
Lemma norm_metadata_wf E x b i m : deserialize E x = Ok b -> metadata (norm b) !! i = Some m -> terminated (inv m).
Proof.
  intros Hd (m0 & Hm0 & <-)%norm_entry.
  by pose proof (proj2 (wf_md b (deserialize_wf E x b Hd)) i m0 Hm0) as [_ (_ & _ & ?)].
Qed.

Lemma pasted_again E src a off bp b b1 b2 : pasted E src a off bp b b1 -> pasted E src a off bp b1 b2 -> alike b1 b2.
Proof.
  intros (R1 & _ & P1) (R2 & _ & P2).
  assert (same_rest b1 b1) as R by (split; [by destruct b1|apply R1]).
  apply (copied_alike b1); [done..|]. intros i Hi. apply dec_stable. intros Hno.
  destruct (P1 i Hi) as [F1 O1]. destruct (P2 i Hi) as [F2 O2].
  assert (version b2 = version b1) as V2 by exact (f_equal version (proj1 R2)).
  pose proof (fun c j => node_trans b1 b1 b2 i c j eq_refl V2) as Htr.
  apply Hno. apply (Htr b1 i); [done|]. apply O2. intros (Hs & sb & j & Hf). apply Hno.
  apply (Htr sb j); [by apply F1|by apply F2].
Qed.

(** ** Maps *)
Lemma blocks_after E main m1 u R k bp y b1 : keys_ok main -> effect E main m1 u R -> block_at k bp ->
  m1 !! k = Some y -> deserialize E y = Ok b1 ->
  exists x b, main !! k = Some x /\ deserialize E x = Ok b /\ (u bp b -> b1 = b) /\ (u bp b \/ norm b1 = b1) /\ R bp b b1.
Proof.
  intros Hk [Hn He] Hbp Hy Hd. destruct (main !! k) as [x|] eqn:Hx; [|by rewrite (Hn k Hx) in Hy].
  destruct (He k bp x Hbp Hx) as (y' & Hy' & H). assert (y' = y) as -> by congruence.
  destruct (deserialize E x) as [b|e] eqn:Ex; [|congruence].
  destruct H as (Hu & b' & Hd' & Hc & HR). assert (b' = b1) as -> by congruence.
  exists x, b. split; [done|]. split; [done|]. split; [|done]. intros H. rewrite (Hu H) in Hd. congruence.
Qed.

Lemma effect_again E main m1 m2 u R1 R2 : keys_ok main -> effect E main m1 u R1 -> effect E m1 m2 u R2 ->
  (forall k bp x y b b1 b2, block_at k bp -> main !! k = Some x -> deserialize E x = Ok b ->
     m1 !! k = Some y -> deserialize E y = Ok b1 ->
     (u bp b -> b1 = b) -> R1 bp b b1 -> R2 bp b1 b2 -> u bp b1 \/ alike b1 b2) ->
  same_contents E m1 m2.
Proof.
  intros Hk E1 E2 HR k. pose proof (effect_keys _ _ _ _ _ Hk E1) as Hk1.
  destruct (m1 !! k) as [y|] eqn:Hy; [|by rewrite (proj1 E2 k Hy)].
  destruct (Hk1 k ltac:(by eexists)) as [bp Hbp].
  destruct (proj2 E2 k bp y Hbp Hy) as (z & -> & Hz). destruct (deserialize E y) as [b1|] eqn:Ey; [|by left].
  destruct Hz as (Hu & b2 & Hd2 & _ & Hr2).
  destruct (blocks_after E main m1 u R1 k bp y b1) as (x & b & Hx & Hd & Hu1 & _ & Hr1); try done.
  destruct (HR k bp x y b b1 b2) as [H|H]; try done; [left; by rewrite Hu|]. right. by exists b1, b2.
Qed.
Lemma effect_idle E main m1 m2 u R1 R2 : keys_ok main -> effect E main m1 u R1 -> effect E m1 m2 u R2 ->
  (forall k bp x b b1, block_at k bp -> main !! k = Some x -> deserialize E x = Ok b ->
     (u bp b -> b1 = b) -> (u bp b \/ norm b1 = b1) -> R1 bp b b1 -> u bp b1) -> m2 = m1.
Proof.
  intros Hk E1 E2 HR. apply map_eq. intros k. pose proof (effect_keys _ _ _ _ _ Hk E1) as Hk1.
  destruct (m1 !! k) as [y|] eqn:Hy; [|by apply E2].
  destruct (Hk1 k ltac:(by eexists)) as [bp Hbp].
  destruct (proj2 E2 k bp y Hbp Hy) as (z & -> & Hz). destruct (deserialize E y) as [b1|] eqn:Ey; [|by subst].
  destruct Hz as (Hu & _).
  destruct (blocks_after E main m1 u R1 k bp y b1) as (x & b & Hx & Hd & Hu1 & Hc & Hr1); try done.
  rewrite Hu; [done|]. by apply (HR k bp x b).
Qed.
Lemma contents_refl E m : same_contents E m m.
Proof. intros k. destruct (m !! k); [by left|done]. Qed.

Lemma total_zero E m cnt : keys_ok m ->
  (forall k bp y b, block_at k bp -> m !! k = Some y -> deserialize E y = Ok b -> cnt bp b = 0) ->
  total E m from_block_key cnt = 0.
Proof.
  intros Hk H. unfold total. assert (forall l : list (Z * bytes), (forall e, e ∈ l -> m !! e.1 = Some e.2) ->
    zsum (fun kx => match deserialize E kx.2 with Ok b => cnt (from_block_key kx.1) b | Err _ => 0 end) l = 0) as Hl.
  { induction l as [|[k y] l IH]; intros Hin; [done|]. cbn [zsum foldr fmap list_fmap fst snd].
    pose proof (Hin (k, y) ltac:(left)) as Hy. simpl in Hy.
    assert (match deserialize E y with Ok b => cnt (from_block_key k) b | Err _ => 0 end = 0) as H0.
    { destruct (deserialize E y) as [b|] eqn:Ed; [|done]. destruct (Hk k ltac:(by eexists)) as [bp Hbp].
      destruct (block_at_key k bp Hbp) as [_ Hkey]. rewrite Hkey. by eapply H. }
    specialize (IH ltac:(intros e He; apply Hin; by right)). unfold zsum in *. simpl in *. lia. }
  apply Hl. intros [k y] ?%elem_of_map_to_list. done.
Qed.

(** ** Runs *)
Lemma run_ok_fun E g W main input m1 l1 m2 l2 : run_ok E g W main input m1 l1 -> run_ok E g W main input m2 l2 ->
  m1 = m2 /\ l1 = l2.
Proof. intros (s1 & H1 & <- & _ & <-) (s2 & H2 & <- & _ & <-). rewrite H1 in H2. by injection H2 as <-. Qed.

Section again.
  Context (E : ext) (g : args) (input : mapdata).

  (** What is known of each command. *)
  Definition runs_as (names : list bytes) (msg_of : mapdata -> msg) (u : vec3 -> block -> Prop)
      (R : vec3 -> block -> block -> Prop) : Prop :=
    forall W m n, fair E W g input -> keys_ok m -> 4095 <= n <= 7280 -> blocks E m (healthy n) ->
      edits E W g m input names (msg_of m) u R.

  Definition again (main : mapdata) (W1 W2 : world) : Prop :=
    exists main1 l1 main2 l2, twice E W1 W2 g main input main1 l1 main2 l2 /\ same_contents E main1 main2 /\
      (idle g -> main2 = main1) /\
      (removes g -> exists f, l2 = warnings g ++ [(LInfo, found_nothing g)] ++ closing f).

  Context (W1 W2 : world) (main : mapdata) (n : Z).
  Context (F1 : fair E W1 g input) (F2 : fair E W2 g input) (Hk : keys_ok main).
  Context (Hn : 4095 <= n) (Hg : n + growth g <= 7280) (Hb : blocks E main (healthy n)) (Hib : blocks E input (healthy n)).

  Lemma growth_nonneg : 0 <= growth g.
  Proof using. unfold growth. destruct (acmd g); lia. Qed.
  Lemma first_kept main1 l1 : run_ok E g W1 main input main1 l1 ->
    keys_ok main1 /\ blocks E main1 (healthy (n + growth g)).
  Proof using F1 Hk Hn Hg Hb Hib.
    pose proof growth_nonneg. intros Hrun.
    destruct (run_next E W1 g main input n F1 Hk ltac:(lia) Hb (fun _ => Hib)) as (m & l & Hrun' & _ & Hk' & Hb').
    destruct (run_ok_fun _ _ _ _ _ _ _ _ _ Hrun Hrun') as [-> _]. done.
  Qed.

  Lemma edits_again names msg_of u R : runs_as names msg_of u R ->
    (forall bp x b b1 b2, deserialize E x = Ok b -> R bp b b1 -> R bp b1 b2 -> alike b1 b2) ->
    (idle g -> forall bp x b b1, deserialize E x = Ok b -> (u bp b -> b1 = b) -> (u bp b \/ norm b1 = b1) ->
       R bp b b1 -> u bp b1) ->
    (removes g -> forall m, keys_ok m -> (forall k bp y b1, block_at k bp -> m !! k = Some y -> deserialize E y = Ok b1 ->
       exists x b, deserialize E x = Ok b /\ (u bp b -> b1 = b) /\ (u bp b \/ norm b1 = b1) /\ R bp b b1) ->
       msg_of m = found_nothing g) ->
    again main W1 W2.
  Proof using F1 F2 Hk Hn Hg Hb Hib.
    pose proof growth_nonneg. intros HR Halike Hidle Hmsg.
    destruct (HR W1 main n F1 Hk ltac:(lia) Hb) as (main1 & f1 & Run1 & _ & Eff1).
    destruct (first_kept main1 _ Run1) as [Hk1 Hb1].
    destruct (HR W2 main1 (n + growth g) F2 Hk1 ltac:(lia) Hb1) as (main2 & f2 & Run2 & _ & Eff2).
    eexists main1, _, main2, _. split; [by split|]. split; [|split].
    - eapply effect_again; [exact Hk|exact Eff1|exact Eff2|]. intros k bp x y b b1 b2 _ _ Hd _ _ _ H1 H2. right. by eapply Halike.
    - intros Hi. eapply effect_idle; [exact Hk|exact Eff1|exact Eff2|]. intros k bp x b b1 _ _ Hd. by apply (Hidle Hi bp x b b1).
    - intros Hr. exists f2. rewrite (Hmsg Hr main1 Hk1); [done|]. intros k bp y b1 Hbp Hy Hd.
      destruct (blocks_after E main main1 u R k bp y b1) as (x & b & _ & ? & ? & ? & ?); [done..|]. by exists x, b.
  Qed.

  Lemma sound_of m k c : k <= c -> blocks E m (healthy k) -> blocks E m (sound c).
  Proof using. intros Hc Hm q x b Hx Hd. apply (sound_mono k); [lia|]. by eapply Hm. Qed.

  Lemma fill_again : acmd g = CFill -> again main W1 W2.
  Proof using F1 F2 Hk Hn Hg Hb Hib.
    intros Hc. destruct (fair_supplied _ _ _ _ F1) as [_ Hs]. rewrite Hc in Hs. destruct Hs as [[a Ea] [node Eo]].
    assert (idle g -> False) as Hni by (unfold idle, removes; rewrite Hc; intros [?|[?|[? _]]]; done).
    eapply (edits_again [] (fun m => MFilled (total E m from_block_key (fun bp _ => fill_count (Some a) (invert g) bp)))).
    - intros W m k HF Hkm Hkr Hbm. apply fill_run; try done; [by eapply fair_setting|by apply HF|].
      apply (sound_of m k); [lia|done].
    - intros bp x b b1 b2 _ H1 H2. eapply renamed_again; [exact H1|exact H2|]. intros i Hi HP.
      destruct H1 as (_ & _ & _ & _ & _ & ->); [|done]. by rewrite decide_True.
    - intros Hi. by destruct Hni.
    - unfold removes. by rewrite Hc.
  Qed.

  Lemma replace_again : acmd g = CReplaceNodes -> again main W1 W2.
  Proof using F1 F2 Hk Hn Hg Hb Hib.
    intros Hc. destruct (fair_supplied _ _ _ _ F1) as [_ Hs]. rewrite Hc in Hs. destruct Hs as [[old Ea] [new Eo]].
    assert (old <> new) as Hne.
    { destruct (fair_legal _ _ _ _ F1) as (_ & _ & _ & _ & Hl). rewrite Hc, Ea, Eo in Hl. congruence. }
    eapply (edits_again [old] (fun m => MReplaced (total E m from_block_key
      (fun bp b => count_if (chosen (aarea g) (invert g) [old] bp b))))).
    - intros W m k HF Hkm Hkr Hbm. apply replace_run; try done; [by eapply fair_setting|by apply HF| |].
      + apply (sound_of m k); [lia|done].
      + intros q x b Hx Hd. by eapply Hbm.
    - intros bp x b b1 b2 _ H1 H2. eapply renamed_again; [exact H1|exact H2|]. intros i Hi HP.
      by destruct (replaced_none _ _ _ _ _ _ _ _ i Hne H1 Hi).
    - unfold idle. rewrite Hc. intros [?|[?|[_ ?]]]; done.
    - intros _ m Hkm Hm. unfold found_nothing. rewrite Hc. f_equal. apply total_zero; [done|].
      intros k bp y b1 Hbp Hy Hd. destruct (Hm k bp y b1) as (x & b & _ & _ & _ & HR); try done.
      apply count_if_none. intros i Hi. by eapply replaced_none.
  Qed.

  Lemma param2_again : acmd g = CSetParam2 -> again main W1 W2.
  Proof using F1 F2 Hk Hn Hg Hb Hib.
    intros Hc. destruct (fair_param2 _ _ _ _ F1 Hc) as [v Ev].
    eapply (edits_again (to_slice (anode g)) (fun m => MParam2 (total E m from_block_key
      (fun bp b => count_if (chosen (aarea g) (invert g) (to_slice (anode g)) bp b))))).
    - intros W m k HF Hkm Hkr Hbm. apply param2_run; try done; [by eapply fair_setting|].
      intros _ q x b Hx Hd. by eapply Hbm.
    - cbv beta. intros bp x b b1 b2 _ H1 H2. eapply repainted_again; [exact H1|exact H2].
    - unfold idle, removes. rewrite Hc. intros [?|[?|[? _]]]; done.
    - unfold removes. by rewrite Hc.
  Qed.

  Lemma delmeta_again : acmd g = CDeleteMeta -> again main W1 W2.
  Proof using F1 F2 Hk Hn Hg Hb Hib.
    intros Hc. set (P := chosen (aarea g) (invert g) (to_slice (anode g))).
    assert (forall bp b b1, ((forall i, is_Some (metadata b !! i) -> ~ P bp b i) -> b1 = b) ->
      ((forall i, is_Some (metadata b !! i) -> ~ P bp b i) \/ norm b1 = b1) ->
      metadata_changed (drop_chosen (P bp b)) b b1 -> forall i, is_Some (metadata b1 !! i) -> ~ P bp b1 i) as Hdone.
    { intros bp b b1 Hu [Hun|Hcan] HC i [m Hm] HP; [rewrite (Hu Hun) in *; by apply (Hun i)|].
      destruct (metadata_parts _ _ _ HC) as (Ed & Em & HM). specialize (HM i). rewrite Hcan, Hm in HM.
      apply (same_names b b1) in HP; [|by rewrite Ed|done].
      destruct (metadata (norm b) !! i); [|done]. simpl in HM. unfold drop_chosen in HM. by rewrite decide_True in HM. }
    eapply (edits_again (to_slice (anode g)) (fun m => MMeta (total E m from_block_key
      (fun bp b => entries (fun i _ => P bp b i) (metadata b))))).
    - intros W m k HF Hkm Hkr Hbm. apply delmeta_run; try done; [by eapply fair_setting| |].
      + intros q x b Hx Hd. apply (sound_meta k). by eapply Hbm.
      + intros _ q x b Hx Hd. by eapply Hbm.
    - cbv beta. intros bp x b b1 b2 _ H1 H2. eapply metadata_again; [exact H1|exact H2|]. intros i m m' _.
      destruct (metadata_parts _ _ _ H1) as (Ed & Em & _).
      unfold drop_chosen. case_decide as HP; [done|]. intros [= <-]. rewrite decide_False; [done|].
      intros HP1. apply HP. by apply (same_names b b1) in HP1; [|by rewrite Ed|].
    - cbv beta. intros _ bp x b b1 _ Hu Hcan HR. by apply (Hdone bp b b1).
    - intros _ m Hkm Hm. unfold found_nothing. rewrite Hc. f_equal. apply total_zero; [done|].
      intros k bp y b1 Hbp Hy Hd. destruct (Hm k bp y b1) as (x & b & _ & Hu & Hcan & HR); try done.
      apply entries_zero. intros i e He. eapply Hdone; [exact Hu|exact Hcan|exact HR|by eexists].
  Qed.

  Lemma deltimers_again : acmd g = CDeleteTimers -> again main W1 W2.
  Proof using F1 F2 Hk Hn Hg Hb Hib.
    intros Hc. set (P := fun bp b t => chosen (aarea g) (invert g) (to_slice (anode g)) bp b (tpos t)).
    assert (forall bp b b1, norm b1 = with_timers (norm b) (filter (fun t => ~ P bp b t) (timers b)) ->
      forall t, t ∈ timers b1 -> ~ P bp b1 t) as Hdone.
    { intros bp b b1 HR t Ht HP.
      assert (timers b1 = filter (fun t => ~ P bp b t) (timers b)) as Et by exact (f_equal timers HR).
      rewrite Et in Ht. apply elem_of_list_filter in Ht as [Ht _]. apply Ht.
      apply (same_names b b1) in HP; [done|exact (f_equal (fun b => nodes (ndata b)) HR)|exact (f_equal nimap HR)]. }
    eapply (edits_again (to_slice (anode g)) (fun m => MTimers (total E m from_block_key
      (fun bp b => count_of (P bp b) (timers b))))).
    - intros W m k HF Hkm Hkr Hbm. apply deltimers_run; try done; [by eapply fair_setting| |].
      + intros q x b Hx Hd. apply (sound_timers k). by eapply Hbm.
      + intros _ q x b Hx Hd. by eapply Hbm.
    - cbv beta. intros bp x b b1 b2 _ H1 H2. apply norm_alike. rewrite H2, filter_all; [by destruct b1|].
      by apply (Hdone bp b).
    - cbv beta. intros _ bp x b b1 _ _ _ HR. exact (Hdone bp b b1 HR).
    - intros _ m Hkm Hm. unfold found_nothing. rewrite Hc. f_equal. apply total_zero; [done|].
      intros k bp y b1 Hbp Hy Hd. destruct (Hm k bp y b1) as (x & b & _ & _ & _ & HR); try done.
      apply count_of_zero. by apply (Hdone bp b).
  Qed.

  Lemma delobj_again : acmd g = CDeleteObjects -> again main W1 W2.
  Proof using F1 F2 Hk Hn Hg Hb Hib.
    intros Hc.
    assert (forall bp b b1, norm b1 = with_objects (norm b) (filter (fun o => cdel g bp o = false) (objects b)) ->
      forall o, o ∈ objects b1 -> cdel g bp o = false) as Hdone.
    { intros bp b b1 HR o Ho.
      assert (objects b1 = filter (fun o => cdel g bp o = false) (objects b)) as Et by exact (f_equal objects HR).
      rewrite Et in Ho. by apply elem_of_list_filter in Ho as [Ho _]. }
    eapply (edits_again (o2l (wanted_object g)) (fun m => MObjects (total E m from_block_key
      (fun bp b => count_of (fun o => cdel g bp o = true) (objects b))))).
    - intros W m k HF Hkm Hkr Hbm. apply delobj_fn; [by eapply fair_setting|done].
    - cbv beta. intros bp x b b1 b2 _ H1 H2. apply norm_alike. rewrite H2, filter_all; [by destruct b1|].
      by apply (Hdone bp b).
    - cbv beta. intros _ bp x b b1 _ _ _ HR. exact (Hdone bp b b1 HR).
    - intros _ m Hkm Hm. unfold found_nothing. rewrite Hc. f_equal. apply total_zero; [done|].
      intros k bp y b1 Hbp Hy Hd. destruct (Hm k bp y b1) as (x & b & _ & _ & _ & HR); try done.
      apply count_of_zero. intros o Ho. by rewrite (Hdone bp b b1 HR o Ho).
  Qed.

  (** Commands that change metadata entries in place. *)
  Lemma change_again (P : vec3 -> block -> Z -> Prop) {HP : forall bp b i, Decision (P bp b i)} f bp b b1 b2 :
    (forall i, P bp b1 i -> P bp b i) ->
    (forall m, f (f m) = f m) ->
    metadata_changed (change_chosen f (P bp b)) b b1 -> metadata_changed (change_chosen f (P bp b1)) b1 b2 -> alike b1 b2.
  Proof using.
    intros Hsame Hf H1 H2. eapply metadata_again; [exact H1|exact H2|]. intros i m m' _. unfold change_chosen.
    intros [= <-]. f_equal. destruct (decide (P bp b1 i)) as [H|H]; [|done].
    rewrite decide_True by (by apply Hsame). apply Hf.
  Qed.
  Lemma changed_entry (P : vec3 -> block -> Z -> Prop) {HP : forall bp b i, Decision (P bp b i)} f bp b b1 i m1 :
    (forall i, P bp b1 i -> P bp b i) -> norm b1 = b1 -> metadata_changed (change_chosen f (P bp b)) b b1 ->
    metadata b1 !! i = Some m1 -> P bp b1 i -> exists m, metadata (norm b) !! i = Some m /\ m1 = f m.
  Proof using.
    intros Hsame Hcan HC Hm Hp. destruct (metadata_parts _ _ _ HC) as (_ & _ & HM). specialize (HM i).
    rewrite Hcan, Hm in HM. destruct (metadata (norm b) !! i) as [m|]; [|done]. simpl in HM.
    rewrite (decide_True (P := P bp b i)) in HM by (by apply Hsame). case_decide; [done|]. injection HM as ->. eauto.
  Qed.
  Lemma changed_chosen names f bp b b1 :
    let P := chosen (aarea g) (invert g) names in
    metadata_changed (change_chosen f (P bp b)) b b1 -> forall i, P bp b1 i -> P bp b i.
  Proof using.
    intros P HC i. destruct (metadata_parts _ _ _ HC) as (Ed & Em & _). apply same_names; [by rewrite Ed|done].
  Qed.

  Lemma change_var_again key value m : change_var key value (change_var key value m) = change_var key value m.
  Proof using.
    unfold change_var. cbn [vars inv]. f_equal. destruct value as [v|].
    - apply map_eq. intros i. destruct (decide (i = key)) as [->|Hi].
      + rewrite !lookup_alter. by destruct (vars m !! key).
      + by rewrite !lookup_alter_ne.
    - apply delete_idemp.
  Qed.

  Lemma setvar_again : acmd g = CSetMetaVar -> again main W1 W2.
  Proof using F1 F2 Hk Hn Hg Hb Hib.
    intros Hc. destruct (fair_supplied _ _ _ _ F1) as [_ Hs]. rewrite Hc in Hs. destruct Hs as [key Ek].
    set (P := chosen (aarea g) (invert g) (anodes g)).
    assert (avalue g = None -> forall bp b b1,
      ((forall i m, metadata b !! i = Some m -> P bp b i -> vars m !! key = None) -> b1 = b) ->
      ((forall i m, metadata b !! i = Some m -> P bp b i -> vars m !! key = None) \/ norm b1 = b1) ->
      metadata_changed (change_chosen (change_var key (avalue g)) (P bp b)) b b1 ->
      forall i m, metadata b1 !! i = Some m -> P bp b1 i -> vars m !! key = None) as Hdone.
    { intros Hv bp b b1 Hu [Hun|Hcan] HC i m Hm HP; [rewrite (Hu Hun) in *; by apply (Hun i)|].
      destruct (changed_entry P (change_var key (avalue g)) bp b b1 i m) as (m0 & _ & ->); try done; [by eapply changed_chosen|].
      rewrite Hv. cbn [vars change_var]. apply lookup_delete. }
    assert (removes g -> avalue g = None) as Hrem by (unfold removes; by rewrite Hc).
    eapply (edits_again (anodes g) (fun m => MVars (total E m from_block_key
      (fun bp b => entries (fun i m => P bp b i /\ is_Some (vars m !! key)) (metadata b))))).
    - intros W m k HF Hkm Hkr Hbm. apply setvar_run; try done; [by eapply fair_setting|by apply HF| |].
      + intros q x b Hx Hd. apply (sound_meta k). by eapply Hbm.
      + intros _ q x b Hx Hd. by eapply Hbm.
    - cbv beta. intros bp x b b1 b2 _ H1 H2. eapply (change_again P); [|apply change_var_again|exact H1|exact H2].
      by eapply changed_chosen.
    - cbv beta. intros Hi bp x b b1 _ Hu Hcan HR.
      assert (avalue g = None) as Hv by (unfold idle in Hi; rewrite Hc in Hi; destruct Hi as [?|[?|[? _]]]; [done..|by apply Hrem]).
      by apply (Hdone Hv bp b b1).
    - intros Hr m Hkm Hm. specialize (Hdone (Hrem Hr)). unfold found_nothing. rewrite Hc. f_equal. apply total_zero; [done|].
      intros k bp y b1 Hbp Hy Hd. destruct (Hm k bp y b1) as (x & b & _ & Hu & Hcan & HR); try done.
      apply entries_zero. intros i e He [Hp [v Hv]]. by rewrite (Hdone bp b b1 Hu Hcan HR i e He Hp) in Hv.
  Qed.

  Lemma replinv_again : acmd g = CReplaceInInv -> again main W1 W2.
  Proof using F1 F2 Hk Hn Hg Hb Hib.
    intros Hc. destruct (fair_supplied _ _ _ _ F1) as [_ Hs]. rewrite Hc in Hs. destruct Hs as [item Ei].
    set (P := chosen (aarea g) (invert g) (anodes g)).
    set (new := if adelete g then None else Some (default item (new_item g))).
    set (f := fun m => NM (vars m) (rewrite_inv item new (delete_meta g) (inv m))).
    destruct (fair_legal _ _ _ _ F1) as (_ & _ & _ & Hnm & Hleg). rewrite Hc in Hleg.
    rewrite Forall_forall in Hnm. unfold all_names in Hnm.
    assert (name_ok item) as Hio by (apply Hnm; rewrite Ei; cbn; set_solver).
    assert (forall m, new = Some m -> name_ok m /\ (m = item \/ new_item g = Some m)) as Hnew.
    { intros m. unfold new. destruct (adelete g); [done|]. intros [= <-].
      destruct (new_item g) as [m|]; cbn [default]; [|by auto].
      split; [|by auto]. apply Hnm. cbn. set_solver. }
    assert (x20 ∉ item) as Hsp by (by apply name_ok_chars in Hio as (_ & ? & _)).
    assert (forall m, new = Some m -> x0a ∉ m /\ x20 ∉ m) as Hch.
    { intros m [Hok _]%Hnew. by apply name_ok_chars in Hok as (_ & ? & ?). }
    assert (removes g -> new <> Some item) as Hrem.
    { unfold removes, new. rewrite Hc. intros [->|(m & Em & Hne)]; [done|]. rewrite Em in *. cbn [default].
      destruct (adelete g); [done|]. intros [= ->]. by destruct Hne. }
    assert (new <> Some item -> forall bp b b1,
      ((forall i m, metadata b !! i = Some m -> P bp b i -> stacks item (inv m) = 0) -> b1 = b) ->
      ((forall i m, metadata b !! i = Some m -> P bp b i -> stacks item (inv m) = 0) \/ norm b1 = b1) ->
      metadata_changed (change_chosen f (P bp b)) b b1 ->
      forall i m, metadata b1 !! i = Some m -> P bp b1 i -> stacks item (inv m) = 0) as Hdone.
    { intros Hv bp b b1 Hu [Hun|Hcan] HC i m Hm HP; [rewrite (Hu Hun) in *; by apply (Hun i)|].
      destruct (changed_entry P f bp b b1 i m) as (m0 & _ & ->); try done; [by eapply changed_chosen|].
      cbn [inv f]. by apply rewrite_inv_stacks. }
    eapply (edits_again (anodes g) (fun m => MStacks (total E m from_block_key
      (fun bp b => zsum (fun e => if decide (P bp b e.1) then stacks item (inv e.2) else 0)
                         (map_to_list (metadata b))) mod 18446744073709551616)
       (total E m from_block_key (fun bp b => entries (fun i m => P bp b i /\ 0 < stacks item (inv m)) (metadata b))))).
    - intros W m k HF Hkm Hkr Hbm. apply replinv_run; try done; [by eapply fair_setting| | | |].
      + intros m' Hm'. destruct (Hnew m' Hm') as [_ [->|Hni]]; apply (fair_tame _ _ _ _ HF); by auto.
      + intros q x b Hx Hd. apply (sound_meta k). by eapply Hbm.
      + intros _ q x b Hx Hd. by eapply Hbm.
      + intros q bp x b i e _ Hx Hd He _. pose proof (Hbm q x b Hx Hd) as Hh. by apply (hl_inv _ _ Hh) in He.
    - cbv beta. intros bp x b b1 b2 Hd H1 H2. eapply (change_again P f); [| |exact H1|exact H2].
      + by eapply changed_chosen.
      + intros m. unfold f. cbn [vars inv]. f_equal. by apply rewrite_inv_again.
    - cbv beta. intros Hi bp x b b1 _ Hu Hcan HR.
      assert (new <> Some item) as Hv by (unfold idle in Hi; rewrite Hc in Hi; destruct Hi as [?|[?|[? _]]]; [done..|by apply Hrem]).
      by apply (Hdone Hv bp b b1).
    - intros Hr m Hkm Hm. specialize (Hdone (Hrem Hr)). unfold found_nothing. rewrite Hc.
      assert (forall k bp y b1 i e, block_at k bp -> m !! k = Some y -> deserialize E y = Ok b1 ->
        metadata b1 !! i = Some e -> P bp b1 i -> stacks item (inv e) = 0) as H0.
      { intros k bp y b1 i e Hbp Hy Hd. destruct (Hm k bp y b1) as (x & b & _ & Hu & Hcan & HR); try done.
        by apply (Hdone bp b b1). }
      rewrite !total_zero; try done.
      + intros k bp y b1 Hbp Hy Hd. apply entries_zero. intros i e He [Hp Hpos].
        rewrite (H0 k bp y b1 i e) in Hpos by done. lia.
      + intros k bp y b1 Hbp Hy Hd. rewrite (zsum_ext _ (fun _ => 0)).
        * clear. induction (map_to_list (metadata b1)); simpl; lia.
        * intros [i e] He%elem_of_map_to_list. simpl. case_decide; [|done]. by apply (H0 k bp y b1 i e).
  Qed.

  Lemma whole_again : acmd g = CDeleteBlocks \/ acmd g = CVacuum -> again main W1 W2.
  Proof using F1 F2 Hk Hn Hg Hb Hib.
    intros Hc. assert (exists main1 l1 main2 l2, twice E W1 W2 g main input main1 l1 main2 l2 /\ main2 = main1)
      as (main1 & l1 & main2 & l2 & Htw & ->).
    { destruct Hc as [Hc|Hc].
      - destruct (delblocks_run E W1 g main input _ (fair_setting _ _ _ _ _ F1 Hk) Hc) as (main1 & Run1 & No1 & He1).
        destruct (first_kept main1 _ Run1) as [Hk1 _].
        destruct (delblocks_run E W2 g main1 input _ (fair_setting _ _ _ _ _ F2 Hk1) Hc) as (main2 & Run2 & No2 & He2).
        eexists main1, _, main2, _. split; [by split|]. apply map_eq. intros k.
        destruct (main1 !! k) as [y|] eqn:Hy; [|by apply No2].
        destruct (Hk1 k ltac:(by eexists)) as [bp Hbp]. rewrite <-Hy. apply (He2 k bp Hbp). intros Hv.
        apply (He1 k bp Hbp) in Hv. congruence.
      - eexists main, _, main, _. split; [|done]. split; apply vacuum_run; try done; first [apply F1|apply F2]. }
    exists main1, l1, main1, l2. split; [done|]. split; [apply contents_refl|]. split; [done|].
    unfold removes. by destruct Hc as [-> | ->].
  Qed.

  Lemma copies_again a off src : ~ removes g -> ~ idle g ->
    (forall W m k, fair E W g input -> keys_ok m -> 4095 <= k <= 7280 -> blocks E m (healthy k) ->
      copies E W g m input (src m) a off) ->
    (forall main1 k bp b b1 b2, block_at k bp -> effect E main main1 (fun bp b => not_generated b \/ ~ target a off bp)
      (fun bp b b' => not_generated b \/ pasted E (src main) a off bp b b') ->
      pasted E (src main) a off bp b b1 -> pasted E (src main1) a off bp b1 b2 -> alike b1 b2) ->
    again main W1 W2.
  Proof using F1 F2 Hk Hn Hg Hb Hib.
    intros Hr Hi HC HA. pose proof growth_nonneg.
    destruct (HC W1 main n F1 Hk ltac:(lia) Hb) as (main1 & f1 & Run1 & _ & Eff1).
    destruct (first_kept main1 _ Run1) as [Hk1 Hb1].
    destruct (HC W2 main1 (n + growth g) F2 Hk1 ltac:(lia) Hb1) as (main2 & f2 & Run2 & _ & Eff2).
    eexists main1, _, main2, _. split; [by split|]. split; [|split; intros ?; by exfalso].
    eapply effect_again; [exact Hk|exact Eff1|exact Eff2|]. cbv beta.
    intros k bp x y b b1 b2 Hbp _ Hd _ _ Hu [Hng|H1] [Hng2|H2].
    - left. by left.
    - left. left. by rewrite Hu by by left.
    - left. by left.
    - right. by eapply HA.
  Qed.

  Lemma overlay_again : acmd g = COverlay -> again main W1 W2.
  Proof using F1 F2 Hk Hn Hg Hb Hib.
    intros Hc. pose proof growth_nonneg.
    assert (~ removes g) as Hnr by (unfold removes; rewrite Hc; tauto).
    assert (~ idle g) as Hni by (unfold idle; rewrite Hc; intros [?|[?|[? _]]]; done).
    assert (forall m, blocks E m (healthy n) -> blocks E m (sound 7280)) as Hsi by (intros m; apply sound_of; lia).
    destruct (decide (default (V3 0 0 0) (offset g) = V3 0 0 0)) as [Hz|Hz].
    2:{ destruct (offset g) as [off|] eqn:Eo; [|done].
        apply (copies_again (aarea g) off (fun _ => input)); try done.
        - intros W m k HF Hkm Hkr Hbm. eapply offset_run; try done; [by eapply fair_setting|apply roomy_7280; [by apply (sound_of m k); [lia|]|by apply Hsi]].
        - intros main1 k bp b b1 b2 _ _ H1 H2. by eapply pasted_again. }
    destruct (overlay_run E W1 g main input from_block_key) as (main1 & f1 & Run1 & _ & K1 & O1); try done;
      [by eapply fair_setting|apply F1|apply roomy_7280; by apply Hsi|].
    destruct (first_kept main1 _ Run1) as [Hk1 Hb1].
    destruct (overlay_run E W2 g main1 input from_block_key) as (main2 & f2 & Run2 & _ & K2 & O2); try done;
      [by eapply fair_setting|apply F1|apply roomy_7280; [eapply sound_of; [|exact Hb1]; lia|by apply Hsi]|].
    eexists main1, _, main2, _. split; [by split|]. split; [|split; intros ?; by exfalso].
    pose proof (area_ok_args g (fair_supplied _ _ _ _ F1) (fair_legal _ _ _ _ F1)) as Ha.
    assert (forall o1 o2 : option bytes, o1 = o2 -> match o1, o2 with
      | None, None => True
      | Some y1, Some y2 => y1 = y2 \/
          exists b1 b2, deserialize E y1 = Ok b1 /\ deserialize E y2 = Ok b2 /\ alike b1 b2
      | _, _ => False end) as Hrefl by (intros [?|] ? <-; [by left|done]).
    intros k. destruct (input !! k) as [x|] eqn:Hx; [|apply Hrefl; by rewrite (K2 k Hx)].
    destruct (fair_input _ _ _ _ F1 k ltac:(by eexists)) as [bp Hbp].
    destruct (O1 k bp x Hbp Hx) as (A1 & B1 & C1 & D1). destruct (O2 k bp x Hbp Hx) as (A2 & B2 & C2 & D2).
    destruct (decide (wholeb (aarea g) (invert g) bp = true)) as [Hw|Hw].
    { apply wholeb_iff in Hw; [|apply Hbp|done]. destruct (decide (claims_generated E x)) as [Hcl|Hcl].
      - apply Hrefl. by rewrite A1, A2.
      - apply Hrefl. by rewrite B2. }
    apply not_true_is_false in Hw. apply wholeb_false in Hw; [|apply Hbp|done].
    destruct (decide (visitb (aarea g) (invert g) bp = true)) as [Hv|Hv].
    2:{ apply Hrefl. rewrite C2; [done|]. intros q Hq Hs; apply Hv, visitb_iff; by exists q. }
    apply visitb_iff in Hv as (q & Hq & Hs).
    assert (~ none (aarea g) (invert g) bp) as Hnone by (intros Hnn; by apply (Hnn q)).
    specialize (D1 Hw Hnone). specialize (D2 Hw Hnone).
    destruct (main !! k) as [y|]; [|rewrite D1 in *; by rewrite D2].
    destruct (main1 !! k) as [y1|] eqn:Hy1.
    2:{ by rewrite D2. }
    destruct D1 as [N1 D1]. destruct D2 as [N2 D2].
    destruct (decide (claims_generated E y1)) as [Hcl1|Hcl1]; [|rewrite N2; [by left|done]].
    specialize (D2 Hcl1). destruct (deserialize E x) as [sb|] eqn:Ex; [|rewrite D2; by left].
    destruct (deserialize E y1) as [b1|] eqn:Ey1; [|rewrite D2; by left].
    destruct D2 as (z2 & b2 & -> & Hd2 & HR2 & _ & _ & M2).
    right. exists b1, b2. split; [done|]. split; [done|].
    destruct (decide (claims_generated E y)) as [Hcl|Hcl]; [|specialize (N1 Hcl); congruence].
    specialize (D1 Hcl). destruct (deserialize E y) as [b|] eqn:Ey; [|congruence].
    destruct D1 as (z1 & b1' & Hz1 & Hd1 & HR1 & _ & _ & M1).
    assert (b1' = b1) as -> by congruence.
    assert (same_rest b1 b1) as Hself by (split; [by destruct b1|apply HR1]).
    assert (forall c, same_rest c b1 -> same_rest c b2 -> forall i, 0 <= i < 4096 -> same_node b1 i b2 i) as Hnodes.
    { intros c R1 R2 i Hr. specialize (M1 i Hr). specialize (M2 i Hr).
      pose proof (fun c' j => node_trans c b1 b2 i c' j (f_equal version (proj1 R1)) (f_equal version (proj1 R2))) as Htr.
      case_decide; [by eapply Htr|]. by apply (Htr b1 i). }
    destruct (invert g).
    - apply (copied_alike sb); [done..|]. by apply (Hnodes sb).
    - apply (copied_alike b1); [done..|]. by apply (Hnodes b1).
  Qed.

  Lemma strip_public m : map_Forall (fun _ v => v.2 = false) (vars m) -> strip_private m = m.
  Proof using.
    intros Hm. unfold strip_private. destruct m as [vs i]. cbn [vars inv] in *. f_equal. apply map_eq. intros k.
    rewrite lookup_fmap. destruct (vs !! k) as [[v p]|] eqn:Ev; [|done]. simpl. apply Hm in Ev. simpl in Ev. by subst p.
  Qed.
  (** What the version of a block does not keep was not there. *)
  Lemma kept_public b j v : no_early_private b -> (metadata b !! j ≫= kept (version b)) ≫= kept v = metadata b !! j ≫= kept v.
  Proof using.
    intros Hp. destruct (metadata b !! j) as [m|] eqn:Em; [|done]. simpl. unfold kept at 2.
    destruct (decide (blank m)) as [Hbl|Hbl].
    - simpl. unfold kept. by rewrite decide_True.
    - simpl. destruct (28 <=? version b) eqn:Ev; [done|]. rewrite strip_public; [done|]. apply (Hp ltac:(lia) j m Em).
  Qed.
  Lemma norm_public b : norm b = b -> no_early_private b.
  Proof using.
    intros Hcan Hv j m Hm. rewrite <-Hcan in Hm.
    change (metadata (norm b)) with (norm_metadata (version b) (metadata b)) in Hm. rewrite norm_lookup in Hm.
    destruct (metadata b !! j) as [m0|]; [|done]. simpl in Hm. unfold kept in Hm. case_decide; [done|].
    replace (28 <=? version b) with false in Hm by lia. injection Hm as <-. intros k [v p] Hk'.
    unfold strip_private in Hk'. cbn [vars] in Hk'. rewrite lookup_fmap in Hk'. destruct (vars m0 !! k); [|done].
    simpl in Hk'. by injection Hk' as _ <-.
  Qed.

  Lemma clone_again : acmd g = CClone -> apart g -> blocks E main no_early_private -> again main W1 W2.
  Proof using F1 F2 Hk Hn Hg Hb Hib.
    intros Hc Hap Hpub. destruct (fair_supplied _ _ _ _ F1) as [_ Hs]. rewrite Hc in Hs. destruct Hs as [[a Ea] [off Eo]].
    apply (copies_again (Some a) off (fun m => m)).
    - unfold removes. rewrite Hc. tauto.
    - unfold idle, removes. rewrite Hc. intros [?|[?|[? _]]]; done.
    - intros W m k HF Hkm Hkr Hbm. eapply clone_run; try done; [by eapply fair_setting|apply roomy_7280; by apply (sound_of m k); [lia|]].
    - intros main1 k bp b b1 b2 Hbp Heff (R1 & _ & P1) (R2 & _ & P2).
      assert (same_rest b1 b1) as Hself by (split; [by destruct b1|apply R1]).
      apply (copied_alike b1); [done..|]. intros i Hi. apply dec_stable. intros Hno.
      destruct (P1 i Hi) as [Fd1 O1]. destruct (P2 i Hi) as [Fd2 O2].
      assert (version b2 = version b1) as V2 by exact (f_equal version (proj1 R2)).
      pose proof (fun c j => node_trans b1 b1 b2 i c j eq_refl V2) as Htr.
      apply Hno. apply (Htr b1 i); [done|]. apply O2. intros (Hsel & sb1 & j & Hf). apply Hno.
      apply (Htr sb1 j); [|by apply Fd2].
      destruct Hf as (sp & Hsp & (ks & sy & Hks & Hsy & Hsd & Hsg) & Hj & Hpos).
      destruct (blocks_after E main main1 _ _ ks sp sy sb1 Hk Heff Hks Hsy Hsd) as (sx & sb & Hsx & Hd0 & Hu & Hcan & HR).
      assert (~ not_generated sb) as Hg0.
      { intros H. rewrite Hu in Hsg; [done|]. by left. }
      destruct HR as [HR|(R0 & _ & P0)]; [done|].
      destruct (Fd1 sb j Hsel) as (N1 & N2 & N3 & N4).
      { exists sp. split; [done|]. split; [by exists ks, sx|done]. }
      destruct (P0 j Hj) as [_ O0]. destruct O0 as (M1 & M2 & M3 & M4).
      { rewrite Hpos. intros [H _]. by apply (Hap a off (minus (abs_pos bp i) off)). }
      split; [congruence|]. split; [congruence|]. split; [congruence|]. rewrite N4.
      assert (version sb1 = version sb) as Vs by exact (f_equal version (proj1 R0)).
      assert (no_early_private sb) as Hp0 by by eapply Hpub.
      assert (no_early_private sb1) as Hp1.
      { destruct Hcan as [H|H]; [by rewrite (Hu H)|by apply norm_public]. }
      rewrite <-(kept_public sb j), <-(kept_public sb1 j) by done. by rewrite M4, Vs.
  Qed.

  Lemma run_again : (acmd g = CClone -> apart g /\ blocks E main no_early_private) -> again main W1 W2.
  Proof using F1 F2 Hk Hn Hg Hb Hib.
    intros Hcl. destruct (acmd g) eqn:Hc.
    - by apply clone_again; [|apply Hcl..].
    - apply whole_again. by left.
    - by apply delmeta_again.
    - by apply delobj_again.
    - by apply deltimers_again.
    - by apply fill_again.
    - by apply replace_again.
    - by apply replinv_again.
    - by apply overlay_again.
    - by apply setvar_again.
    - by apply param2_again.
    - apply whole_again. by right.
  Qed.
End again.

(** ** Statements *)
Section statements.
  Context (E : ext) (W1 W2 : world) (g : args) (main input : mapdata) (n : Z).
  Context (F1 : fair E W1 g input) (F2 : fair E W2 g input) (Hk : keys_ok main).
  Context (Hn : 4095 <= n) (Hg : n + growth g <= 7280) (Hb : blocks E main (healthy n)) (Hib : blocks E input (healthy n)).

  Lemma again_same : (acmd g = CClone -> apart g /\ blocks E main no_early_private) ->
    exists main1 l1 main2 l2, twice E W1 W2 g main input main1 l1 main2 l2 /\ same_contents E main1 main2.
  Proof using F1 F2 Hk Hn Hg Hb Hib.
    intros Hc. destruct (run_again E g input W1 W2 main n F1 F2 Hk Hn Hg Hb Hib Hc) as (m1 & l1 & m2 & l2 & ? & ? & _).
    by exists m1, l1, m2, l2.
  Qed.
  Lemma again_idle : idle g ->
    exists main1 l1 l2, twice E W1 W2 g main input main1 l1 main1 l2.
  Proof using F1 F2 Hk Hn Hg Hb Hib.
    intros Hi. destruct (run_again E g input W1 W2 main n F1 F2 Hk Hn Hg Hb Hib) as (m1 & l1 & m2 & l2 & Ht & _ & Hid & _).
    { intros Hc. unfold idle, removes in Hi. rewrite Hc in Hi. by destruct Hi as [?|[?|[? _]]]. }
    rewrite (Hid Hi) in Ht. by exists m1, l1, l2.
  Qed.
  Lemma again_nothing : removes g ->
    exists main1 l1 main2 f, twice E W1 W2 g main input main1 l1 main2
      (warnings g ++ [(LInfo, found_nothing g)] ++ closing f).
  Proof using F1 F2 Hk Hn Hg Hb Hib.
    intros Hr. destruct (run_again E g input W1 W2 main n F1 F2 Hk Hn Hg Hb Hib) as (m1 & l1 & m2 & l2 & Ht & _ & _ & Hf).
    { intros Hc. unfold removes in Hr. by rewrite Hc in Hr. }
    destruct (Hf Hr) as [f ->]. by exists m1, l1, m2, f.
  Qed.
End statements.
