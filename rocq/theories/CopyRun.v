(** Runs of clone and overlay with offset *)
From Verif Require Import SysProofs RunProofs ArgProofs ThreadProofs SpatialProofs MapProofs CodecProofs
  BlockProofs QueryProofs UtilsProofs EditProofs BodyProofs MixProofs FragProofs CopyProofs SpecCopy Spec.

(** ** Loops over keys, one block changed at a time *)
Section loop.
  Context (W : world) {C : Type} (step : C -> Z -> M C).
  Context (d m : mapdata) (i : mapdb) (h : bool) (t : list (log_type * msg)).
  Context (upd : Z -> option bytes) (fl : Z -> Z) (I : list Z -> C -> Prop) (keys : list Z).

  Definition so_far (ks : list Z) (m' : mapdata) : Prop :=
    forall k, m' !! k = if decide (k ∈ ks) then upd k else m !! k.

  Lemma h_key_loop u c : NoDup keys -> I [] c -> 0 <= blocks_failed u < 18446744073709551616 ->
    (forall ks k rest c m' u', keys = ks ++ k :: rest -> k ∉ ks -> I ks c -> so_far ks m' ->
       0 <= blocks_failed u' < 18446744073709551616 ->
       hoare W (st d m' i h u' t) (step c k)
         (fun c' s => I (ks ++ [k]) c' /\ exists u'' m'', blocks_failed u'' = u64 (blocks_failed u' + fl k) /\
            (forall k2, m'' !! k2 = if decide (k2 = k) then upd k else m' !! k2) /\
            st d m'' i h u'' t s) never) ->
    hoare W (st d m i h u t) (foldM step keys c)
      (fun _ s => exists u' m', blocks_failed u' = u64 (blocks_failed u + zsum fl keys) /\
         so_far keys m' /\ st d m' i h u' t s) never.
  Proof.
    intros Hn HI Hu Hstep.
    eapply h_conseq; [apply h_foldM with (I := fun ks c s => I ks c /\ exists u' m',
       blocks_failed u' = u64 (blocks_failed u + zsum fl ks) /\ so_far ks m' /\ st d m' i h u' t s) (R := never)| | |done].
    - intros ks k rest c' E. apply h_pre. intros Hc. apply h_ex. intros u'. apply h_ex. intros m'.
      apply h_pre. intros Hu'. apply h_pre. intros Hm'.
      assert (k ∉ ks) as Hk.
      { rewrite E in Hn. apply NoDup_app in Hn as (_ & Hn & _). intros H. apply (Hn k H). left. }
      eapply h_post.
      + apply (Hstep ks k rest c' m' u' E Hk Hc Hm'). rewrite Hu'. unfold u64. apply Z.mod_pos_bound. lia.
      + intros c2 s (HI2 & u2 & m2 & Hf & Hl & Hs). split; [done|]. exists u2, m2. split; [|split; [|done]].
        * rewrite Hf, Hu', u64_add, zsum_app. simpl. f_equal. lia.
        * intros k2. rewrite Hl. case_decide as Hk2.
          -- subst. by rewrite decide_True by set_solver.
          -- rewrite Hm'. destruct (decide (k2 ∈ ks)); [by rewrite decide_True by set_solver|].
             rewrite decide_False by set_solver. done.
    - intros s Hs. split; [done|]. exists u, m. split; [by rewrite Z.add_0_r, u64_id|]. split; [|done].
      intros k. by rewrite decide_False by apply not_elem_of_nil.
    - intros c' s [_ H]. exact H.
  Qed.
End loop.

(** ** Reading through the cache *)
Definition faithful (E : ext) (m0 : mapdata) (c : cache_map blk_res) : Prop :=
  forall k r, cache_get c k = Some r -> r = load_res E (m0 !! k).
Lemma faithful_new E m0 n : faithful E m0 (cache_new n).
Proof. intros k r H. unfold cache_get, cache_new in H. simpl in H. by rewrite lookup_empty in H. Qed.
Lemma faithful_insert E m0 c k : faithful E m0 c -> faithful E m0 (cache_insert c k (load_res E (m0 !! k))).
Proof.
  intros Hc k2 r. unfold cache_insert, cache_get. 
  assert (forall q (mm : gmap Z blk_res), (forall k3 r3, mm !! k3 = Some r3 -> r3 = load_res E (m0 !! k3)) ->
    cmap (CM (q ++ [k]) (<[k:=load_res E (m0 !! k)]> mm) (cap c)) !! k2 = Some r -> r = load_res E (m0 !! k2)) as Hgen.
  { intros q mm Hmm H. simpl in H. apply lookup_insert_Some in H as [[<- <-]|[_ H]]; [done|]. by apply Hmm. }
  destruct (_ <=? _).
  - destruct (key_queue c) as [|o q]; intros H; eapply Hgen; try exact H; intros k3 r3 H3.
    + by apply Hc.
    + apply lookup_delete_Some in H3 as [_ H3]. by apply Hc.
  - intros H; eapply Hgen; try exact H. intros k3 r3 H3. by apply Hc.
Qed.

Section read.
  Context (W : world) (HW : no_faults W) (E : ext) (m0 : mapdata).
  Context (d m : mapdata) (i : mapdb) (im : mapdata) (h : bool) (u : status_t) (t : list (log_type * msg)).
  Context (w : which) (Hr : reading i im \/ w = Main).

  Lemma h_get_any key :
    hoare W (st d m i h u t) (get_block w key)
      (fun r s => r = match seen w m im !! key with Some x => DOk x | None => DErr MissingData end /\
         st d m i h u t s) never.
  Proof.
    destruct Hr as [Hi| ->].
    - eapply h_post; [by apply h_get_block|]. intros r s [? ?]. by split.
    - eapply h_post; [by apply h_get_main|]. intros r s [? ?]. by split.
  Qed.

  Lemma h_get_cached c key : faithful E m0 c -> seen w m im !! key = m0 !! key ->
    hoare W (st d m i h u t) (get_cached E w c key)
      (fun rc s => (rc.1 = load_res E (m0 !! key) /\ faithful E m0 rc.2) /\ st d m i h u t s) never.
  Proof.
    intros Hc Hk. unfold get_cached. destruct (cache_get c key) as [r|] eqn:Eg.
    - apply h_ret. intros s Hs. split; [|done]. split; [by apply Hc|done].
    - eapply h_bind; [apply h_get_any|]. intros r. cbn beta. apply h_pre. intros ->.
      apply h_ret. intros s Hs. split; [|done]. rewrite Hk.
      assert (okD (match m0 !! key with Some x => DOk x | None => DErr MissingData end) = m0 !! key) as ->
        by by destruct (m0 !! key).
      split; [done|]. by apply faithful_insert.
  Qed.

  Lemma h_copy_step part off dpos st0 sp b : faithful E m0 st0.2 ->
    (is_valid_block_pos sp = true -> seen w m im !! key_of sp = m0 !! key_of sp) ->
    copy_src E m0 part off dpos st0.1 sp = Ret b ->
    hoare W (st d m i h u t) (copy_step E w (area_sub part off) off dpos st0 sp)
      (fun bc s => (bc.1 = b /\ faithful E m0 bc.2) /\ st d m i h u t s) never.
  Proof.
    intros Hc Hk Hb. unfold copy_step. unfold copy_src, src_at in Hb.
    destruct (is_valid_block_pos sp) eqn:Ev; cbn [negb]; cycle 1.
    { inv Hb. apply h_ret. intros s Hs. by split. }
    eapply h_lift_bind.
    { apply to_block_key_ok. apply valid_block_pos in Ev. by apply within_key. }
    eapply h_bind; [apply h_get_cached; [done|by apply Hk]|]. intros [r c']. cbn beta. cbn [fst snd].
    apply h_pre. intros [-> Hc'].
    destruct (load_res E (m0 !! key_of sp)) as [[src|]|].
    - eapply h_lift_bind; [exact Hb|]. apply h_ret. by intros s Hs.
    - inv Hb. apply h_ret. by intros s Hs.
    - inv Hb. apply h_ret. by intros s Hs.
  Qed.

  Lemma h_copy_from part off dpos dst c b : faithful E m0 c ->
    (forall sp, inside (to_touching_block_area (area_sub part off)) sp -> is_valid_block_pos sp = true ->
       seen w m im !! key_of sp = m0 !! key_of sp) ->
    nonempty (area_sub part off) -> area_within 1000000 (area_sub part off) ->
    copy_out E m0 part off dpos dst = Ret b ->
    hoare W (st d m i h u t) (copy_from E w part off dpos dst c)
      (fun bc s => (bc.1 = b /\ faithful E m0 bc.2) /\ st d m i h u t s) never.
  Proof.
    intros Hc Hk Hne Haw Hb. unfold copy_from, copy_out in *. cbv zeta.
    set (A := area_sub part off) in *.
    assert (area_positions (to_touching_block_area A) = Some (enum_area (to_touching_block_area A))) as Hps.
    { apply area_positions_enum; [by apply to_touching_nonempty|].
      clearbody A. unfold area_within, within, to_touching_block_area, vmap in *; simpl. lia. }
    rewrite Hps in Hb |- *.
    cbn [unwrap bindO] in Hb. cbn [unwrapM]. apply h_ret_bind.
    assert (forall sp, sp ∈ enum_area (to_touching_block_area A) -> is_valid_block_pos sp = true ->
       seen w m im !! key_of sp = m0 !! key_of sp) as Hk'.
    { intros sp Hsp. apply Hk. by apply elem_of_enum_area. }
    clear Hk Hne Haw Hps. revert dst c Hc Hb Hk'. induction (enum_area _) as [|sp ps IH]; intros dst c Hc Hb Hk'.
    - simpl in Hb. inv Hb. apply h_ret. by intros s Hs.
    - cbn [foldO] in Hb. destruct (copy_src E m0 part off dpos dst sp) as [b1|] eqn:E1; [|done]. cbn [bindO] in Hb.
      cbn [foldM]. eapply h_bind; [apply h_copy_step with (b := b1); [done|apply Hk'; set_solver|exact E1]|].
      intros [b2 c2]. cbn beta. cbn [fst snd]. apply h_pre. intros [-> Hc2]. apply IH; [done|exact Hb|].
      intros sp' Hsp'. apply Hk'. set_solver.
  Qed.
End read.

(** ** One block *)
Section block.
  Context (E : ext) (HE : ext_ok E) (Hfull : full_writes E).
  Context (main src : mapdata) (a : option area) (off : vec3).
  Context (Ha : match a with Some a => nonempty a /\ area_within 31000 a | None => True end).
  Context (Ho : within 62000 off).
  Context {nd ns : Z} (Hroom : room off nd ns) (Hmain : blocks E main (sound nd)) (Hsrc : blocks E src (sound ns)).

  Definition shifted : option area := match a with Some a => Some (area_add a off) | None => None end.

  Lemma shifted_sel q : selected shifted false q <-> selected a false (minus q off).
  Proof.
    unfold shifted. destruct a as [a'|]; [|done]. destruct Ha as [_ Hw]. unfold selected, inside, area_add, vadd, minus; simpl.
    unfold area_within, within in *. rewrite !w32_id by (unfold i32_ok; lia). lia.
  Qed.
  Lemma shifted_ok : area_ok shifted.
  Proof.
    unfold shifted. destruct a as [a'|]; [|done]. destruct Ha as [Hne Hw]. unfold area_ok, area_add, vadd.
    unfold nonempty, area_within, within in *; simpl. rewrite !w32_id by (unfold i32_ok; lia). lia.
  Qed.
  Lemma shifted_target bp : visit shifted false true bp <-> target a off bp.
  Proof.
    unfold visit, target. split; intros (q & Hq & Hs); exists q; (split; [done|]); by apply shifted_sel.
  Qed.
  Definition whole_area (bp : vec3) : out area := area_new (vmuls bp 16) (vadds (vmuls bp 16) 15).
  Definition part_of (bp : vec3) : out area :=
    match shifted with None => whole_area bp | Some a => unwrap (abs_block_overlap a bp) end.

  Lemma whole_ok bp : key_range bp -> whole_area bp = Ret (Area (block_corner bp) (plus (block_corner bp) (V3 15 15 15))).
  Proof.
    intros Hk. unfold whole_area. rewrite corner15, block_corner_muls by (unfold key_range, within in *; lia).
    unfold area_new, area_valid; simpl. unfold plus; simpl.
    replace (_ && _ && _) with true; [done|]. symmetry. rewrite !andb_true_iff, !Z.leb_le. lia.
  Qed.

  Lemma part_ok bp : key_range bp -> target a off bp -> exists part, part_of bp = Ret part /\ nonempty part /\
    forall p, inside part p <-> node_in_block bp p /\ selected a false (minus p off).
  Proof.
    intros Hk Ht. unfold part_of.
    assert (within 100000000 bp) as Hw by (unfold key_range, within in *; lia).
    pose proof shifted_sel as Hss. pose proof (proj2 (shifted_target bp) Ht) as (q & Hq & Hs).
    destruct shifted as [c|].
    - destruct (abs_block_overlap c bp) as [part|] eqn:Ep.
      + exists part. split; [done|]. destruct (abs_overlap_Some c bp part Hw Ep) as [Hne Hin]. split; [done|].
        intros p. rewrite Hin, <-Hss. simpl. tauto.
      + apply abs_overlap_None in Ep; [|done]. destruct Ep. exists q. done.
    - rewrite whole_ok by done. eexists. split; [done|]. split.
      + unfold nonempty, plus; simpl. lia.
      + intros p. rewrite <-Hss. unfold inside, node_in_block, block_corner, plus; simpl. lia.
  Qed.

  Definition copied_data (part : area) (bp : vec3) (dst : block) : out bytes :=
    let* b := copy_out E src part off bp dst in let* c := clean_name_id_map b in serialize E c.

  Lemma copied_ok k x bp dst part : key_range bp -> main !! k = Some x -> deserialize E x = Ok dst ->
    nonempty part -> (forall p, inside part p <-> node_in_block bp p /\ selected a false (minus p off)) ->
    exists d b b', copy_out E src part off bp dst = Ret b /\
      (let* c := clean_name_id_map b in serialize E c) = Ret d /\ deserialize E d = Ok b' /\ norm b' = b' /\ pasted E src a off bp dst b'.
  Proof.
    intros Hk Hx Hd Hne Hin.
    assert (good nd dst) as Hg by (apply sound_good; [by eapply deserialize_wf|by eapply Hmain]).
    assert (within 6000 bp) as Hw by (unfold key_range, within in *; lia).
    destruct (copy_out_ok E src part off bp dst HE Hsrc Hg Hroom Hne (fun p Hp => proj1 (proj1 (Hin p) Hp)) Hw Ho)
      as (b & Eb & Hb & Hr & Hs).
    destruct (stored_mix E dst b HE Hfull Hb Hr) as (d & b' & Ed & Ed' & Hrest & Hv & Ht & Hcan & Hn).
    exists d, b, b'. split; [done|]. split; [done|]. split; [done|]. split; [done|]. split; [done|].
    split; [apply tight_tidy; [apply Hrest|apply wf_lens; by eapply deserialize_wf|done]|].
    intros i Hi p. specialize (Hs i Hi). unfold origin in Hs. fold p in Hs.
    assert (node_in_block bp (abs_pos bp i)) as Hib.
    { apply block_of_iff. symmetry. by apply abs_pos_block. }
    split.
    - intros sb j Hsel [Hsb ->]%found_iff; [|done]. rewrite decide_True in Hs by (apply Hin; by split).
      rewrite Hsb in Hs. by apply Hn.
    - intros Hnot. apply Hn. destruct (decide (inside part (abs_pos bp i))) as [Hp|Hp]; [|done].
      destruct (src_at E src (block_of p)) as [sb|] eqn:Esb; [|done]. destruct Hnot. split.
      + by apply Hin.
      + exists sb, (idx_in p). by apply found_iff.
  Qed.

  Definition upd (k : Z) : option bytes :=
    match main !! k with
    | None => None
    | Some x =>
      match load_res E (Some x) with
      | Some (Ok dst) =>
        match (let* part := part_of (from_block_key k) in copied_data part (from_block_key k) dst) with
        | Ret d => Some d
        | Panic => Some x
        end
      | _ => Some x
      end
    end.
  Definition fl (k : Z) : Z :=
    match load_res E (main !! k) with Some (Err _) => 1 | _ => 0 end.

  Lemma copied_part k x dst : block_at k (from_block_key k) -> target a off (from_block_key k) ->
    main !! k = Some x -> load_res E (Some x) = Some (Ok dst) ->
    exists part d b b', part_of (from_block_key k) = Ret part /\ nonempty part /\
      (forall p, inside part p <-> node_in_block (from_block_key k) p /\ selected a false (minus p off)) /\
      copy_out E src part off (from_block_key k) dst = Ret b /\
      (let* c := clean_name_id_map b in serialize E c) = Ret d /\ upd k = Some d /\
      deserialize E d = Ok b' /\ norm b' = b' /\ pasted E src a off (from_block_key k) dst b'.
  Proof.
    intros [Hk _] Ht Hx Hl. destruct (part_ok (from_block_key k) Hk Ht) as (part & Ep & Hne & Hin).
    pose proof Hl as Hl'. apply load_res_ok in Hl' as (x' & [= <-] & Hd & _); [|done].
    destruct (copied_ok k x (from_block_key k) dst part Hk Hx Hd Hne Hin) as (d & b & b' & Eb & Ed & Ed' & Hcan & Hp).
    exists part, d, b, b'. split; [done|]. split; [done|]. split; [done|]. split; [done|]. split; [done|].
    split; [|done]. unfold upd. rewrite Hx, Hl, Ep. cbn [bindO]. unfold copied_data. rewrite Eb. cbn [bindO].
    by rewrite Ed.
  Qed.
End block.

(** ** Order of the keys *)
Definition skey (off : vec3) (k : Z) : Z :=
  key_of (vadd (vmul (from_block_key k) (sort_dir off)) (sort_off off)).
Section order.
  Context (off : vec3).
  Definition turned (p : vec3) : vec3 :=
    V3 (if 0 <? vx off then - vx p - 1 else vx p) (if 0 <? vy off then - vy p - 1 else vy p)
       (if 0 <? vz off then - vz p - 1 else vz p).
  Lemma turned_ok p : key_range p -> vadd (vmul p (sort_dir off)) (sort_off off) = turned p.
  Proof.
    intros Hp. unfold turned, sort_off, sort_dir, vadd, vmul, vmap; cbn [vx vy vz]. unfold key_range in Hp.
    f_equal; destruct (0 <? _); rewrite !w32_id; unfold i32_ok; try (rewrite w32_id; unfold i32_ok); simpl; lia.
  Qed.
  Lemma sort_key_ok k bp : block_at k bp -> sort_key off k = Ret (skey off k).
  Proof.
    intros [Hr Hk]%block_at_key. unfold sort_key, skey. rewrite Hk, turned_ok by done.
    apply to_block_key_ok. unfold key_range, turned in *; simpl. repeat destruct (0 <? _); lia.
  Qed.

  Lemma sort_keys_ok keys : (forall k, k ∈ keys -> exists bp, block_at k bp) -> exists l,
    sort_keys off keys = Ret l /\ l ≡ₚ keys /\
    forall ks k rest, l = ks ++ k :: rest -> forall k', k' ∈ ks -> skey off k' <= skey off k.
  Proof.
    intros Hk. unfold sort_keys.
    rewrite (mapO_Ret _ (fun k => (skey off k, k))); cycle 1.
    { intros k [bp Hb]%Hk. by rewrite (sort_key_ok k bp Hb). }
    cbn [bindO]. eexists. split; [done|]. set (ps := (fun k => (skey off k, k)) <$> keys).
    pose proof (merge_sort_Permutation key_le ps) as Hperm.
    assert (StronglySorted key_le (merge_sort key_le ps)) as Hsort
      by (apply StronglySorted_merge_sort; [apply key_le_trans|apply key_le_total]).
    set (qs := merge_sort key_le ps) in *. split.
    - rewrite Hperm. unfold ps. rewrite <-list_fmap_compose. by rewrite list_fmap_id.
    - intros ks k rest El k' Hk'.
      apply fmap_app_inv in El as (q1 & q2 & -> & E2 & Eq).
      destruct q2 as [|[s k0] q2]; [done|]. cbn [fmap list_fmap] in E2. simpl in E2. injection E2 as -> _.
      apply elem_of_list_fmap in Hk' as ([s' k0'] & -> & Hin). simpl.
      assert (forall p, p ∈ qs -> p.1 = skey off p.2) as Hfst.
      { intros p Hp. rewrite Hperm in Hp. unfold ps in Hp. by apply elem_of_list_fmap in Hp as (? & -> & _). }
      pose proof (Hfst (s', k0') ltac:(rewrite Eq; set_solver)) as H1.
      pose proof (Hfst (s, k0) ltac:(rewrite Eq; set_solver)) as H2. simpl in H1, H2. rewrite <-H1, <-H2.
      pose proof Hsort as Hs. rewrite Eq in Hs. clear -Hs Hin. induction q1 as [|y q1 IH]; [by apply elem_of_nil in Hin|].
      simpl in Hs. apply StronglySorted_inv in Hs as [Hs Hf]. apply elem_of_cons in Hin as [<-|Hin]; [|by apply IH].
      rewrite Forall_forall in Hf. apply (Hf (s, k0)). set_solver.
  Qed.

  (** A source block of the destination [bp] does not come before it. *)
  Lemma source_later p bp sp : node_in_block bp p -> node_in_block sp (minus p off) -> key_range bp -> key_range sp ->
    skey off (key_of bp) <= skey off (key_of sp) /\
    (skey off (key_of bp) = skey off (key_of sp) -> bp = sp).
  Proof.
    intros Hb Hs Hkb Hks. unfold skey. rewrite !from_key_of, !turned_ok by done.
    destruct bp as [x y z], sp as [x' y' z'].
    unfold node_in_block, minus, key_of, turned, key_range in *; simpl in *.
    assert ((if 0 <? vx off then - x - 1 else x) <= (if 0 <? vx off then - x' - 1 else x')) as Hx
      by (destruct (0 <? vx off) eqn:E; lia).
    assert ((if 0 <? vy off then - y - 1 else y) <= (if 0 <? vy off then - y' - 1 else y')) as Hy
      by (destruct (0 <? vy off) eqn:E; lia).
    assert ((if 0 <? vz off then - z - 1 else z) <= (if 0 <? vz off then - z' - 1 else z')) as Hz
      by (destruct (0 <? vz off) eqn:E; lia).
    split; [lia|]. intros He.
    assert ((if 0 <? vx off then - x - 1 else x) = (if 0 <? vx off then - x' - 1 else x') /\
      (if 0 <? vy off then - y - 1 else y) = (if 0 <? vy off then - y' - 1 else y') /\
      (if 0 <? vz off then - z - 1 else z) = (if 0 <? vz off then - z' - 1 else z')) as (Ex & Ey & Ez) by lia.
    clear -Ex Ey Ez. f_equal; [destruct (0 <? vx off)|destruct (0 <? vy off)|destruct (0 <? vz off)]; lia.
  Qed.
End order.

Lemma h_clean_write W E d0 m i h u t key b d : no_faults W ->
  (let* c := clean_name_id_map b in serialize E c) = Ret d ->
  hoare W (st d0 m i h u t) (clean_write E key b) (fun _ => st d0 (<[key := d]> m) i h u t) never.
Proof.
  intros HW Hd. unfold clean_write. eapply h_lift_bind; [exact Hd|].
  eapply h_bind; [by apply h_set_block|]. intros r. cbn beta.
  eapply h_weaken with (P := fun s => r = DOk tt /\ st d0 (<[key := d]> m) i h u t s); [|tauto].
  apply h_pre. intros ->. apply h_ret. done.
Qed.

(** ** The two loops *)
Section step.
  Context (W : world) (HW : no_faults W) (E : ext) (HE : ext_ok E) (Hfull : full_writes E).
  Context (main src : mapdata) (a : option area) (off : vec3).
  Context (Ha : match a with Some a => nonempty a /\ area_within 31000 a | None => True end).
  Context (Ho : within 62000 off).
  Context {nd ns : Z} (Hroom : room off nd ns) (Hmain : blocks E main (sound nd)) (Hsrc : blocks E src (sound ns)).
  Context (d : mapdata) (i : mapdb) (im : mapdata) (h : bool) (t : list (log_type * msg)).
  Context (w : which) (Hr : reading i im \/ w = Main).

  Notation upd := (upd E main src a off).
  Notation fl := (fl E main).

  Lemma part_sub k part : key_range (from_block_key k) -> nonempty part ->
    (forall p, inside part p <-> node_in_block (from_block_key k) p /\ selected a false (minus p off)) ->
    nonempty (area_sub part off) /\ area_within 1000000 (area_sub part off) /\
    forall sp, inside (to_touching_block_area (area_sub part off)) sp ->
      exists p, node_in_block (from_block_key k) p /\ node_in_block sp (minus p off).
  Proof.
    intros Hk Hne Hin. set (bp := from_block_key k) in *. clearbody bp.
    assert (within 6000 bp) as Hw by (unfold key_range, within in *; lia).
    assert (forall p, inside part p -> node_in_block bp p) as Hin' by (intros p [? _]%Hin; done).
    pose proof (part_corners part bp Hne Hin') as [Hc1 Hc2].
    pose proof (sub_exact part off bp Hne Hin' Hw Ho) as Esub.
    assert (nonempty (area_sub part off)) as Hne'.
    { rewrite Esub. unfold nonempty, minus in *; simpl. lia. }
    split; [done|]. split.
    { rewrite Esub. unfold area_within, within, node_in_block, minus in *; simpl. lia. }
    intros sp Hsp. apply to_touching_iff in Hsp as (q & Hqs & Hq); [|done].
    exists (plus q off). rewrite Esub in Hq. split.
    - apply Hin'. unfold inside, minus, plus in *; simpl in *. lia.
    - unfold node_in_block, minus, plus in *; simpl. lia.
  Qed.

  (** What remains once the block has been read. *)
  Lemma h_paste k x m' u c part dst b dd : faithful E src c -> m' !! k = main !! k -> main !! k = Some x ->
    key_range (from_block_key k) -> nonempty part ->
    (forall p, inside part p <-> node_in_block (from_block_key k) p /\ selected a false (minus p off)) ->
    (forall p sp, node_in_block (from_block_key k) p -> node_in_block sp (minus p off) ->
       is_valid_block_pos sp = true -> seen w m' im !! key_of sp = src !! key_of sp) ->
    copy_out E src part off (from_block_key k) dst = Ret b ->
    (let* c := clean_name_id_map b in serialize E c) = Ret dd -> upd k = Some dd ->
    fl k = 0 -> 0 <= blocks_failed u < 18446744073709551616 ->
    hoare W (st d m' i h u t)
      (bc ← copy_from E w part off (from_block_key k) dst c; clean_write E k bc.1 ;; mret bc.2)
      (fun c' s => faithful E src c' /\ exists u'' m'', blocks_failed u'' = u64 (blocks_failed u + fl k) /\
         (forall k2, m'' !! k2 = if decide (k2 = k) then upd k else m' !! k2) /\ st d m'' i h u'' t s) never.
  Proof.
    intros Hc Hk Hx Hkr Hne Hin Hread Eb Ed Eu Hfl Hu.
    destruct (part_sub k part Hkr Hne Hin) as (Hne' & Haw & Htouch).
    eapply h_bind.
    - apply h_copy_from with (im := im) (m0 := src) (b := b); [done|done|done| |done|done|done].
      intros sp Hsp Hv. destruct (Htouch sp Hsp) as (p & Hp & Hps). by apply (Hread p).
    - intros [b2 c2]. cbn beta. cbn [fst snd]. apply h_pre. intros [-> Hc2].
      eapply h_bind; [by apply h_clean_write|]. intros ?. cbn beta. apply h_ret. intros s Hs.
      split; [done|]. exists u, (<[k := dd]> m'). split; [by rewrite Hfl, Z.add_0_r, u64_id|]. split; [|done].
      intros k2. rewrite Eu. case_decide; [subst; by rewrite lookup_insert|by rewrite lookup_insert_ne].
  Qed.

  (** A block that is left alone. *)
  Lemma h_leave {C} (c : C) (I : C -> Prop) k m' u : I c -> m' !! k = upd k -> fl k = 0 ->
    0 <= blocks_failed u < 18446744073709551616 ->
    hoare W (st d m' i h u t) (mret c)
      (fun c' s => I c' /\ exists u'' m'', blocks_failed u'' = u64 (blocks_failed u + fl k) /\
         (forall k2, m'' !! k2 = if decide (k2 = k) then upd k else m' !! k2) /\ st d m'' i h u'' t s) never.
  Proof.
    intros Hc Hk Hfl Hu. apply h_ret. intros s Hs. split; [done|]. exists u, m'.
    split; [by rewrite Hfl, Z.add_0_r, u64_id|]. split; [|done]. intros k2. by case_decide; subst.
  Qed.
  Lemma h_fail {C} (c : C) (I : C -> Prop) k m' u : I c -> m' !! k = upd k -> fl k = 1 ->
    hoare W (st d m' i h u t) (inc_failed ;; mret c)
      (fun c' s => I c' /\ exists u'' m'', blocks_failed u'' = u64 (blocks_failed u + fl k) /\
         (forall k2, m'' !! k2 = if decide (k2 = k) then upd k else m' !! k2) /\ st d m'' i h u'' t s) never.
  Proof.
    intros Hc Hk Hfl. eapply h_bind; [apply h_inc_failed|]. intros ?. cbn beta.
    apply h_ret. intros s (u' & Hs & Hf). split; [done|]. exists u', m'.
    rewrite Hfl. split; [done|]. split; [|done]. intros k2. by case_decide; subst.
  Qed.

  (** overlay with an offset *)
  Lemma h_offset_step k m' u c x : faithful E src c -> m' !! k = main !! k -> main !! k = Some x ->
    block_at k (from_block_key k) -> target a off (from_block_key k) ->
    (forall p sp, node_in_block (from_block_key k) p -> node_in_block sp (minus p off) ->
       is_valid_block_pos sp = true -> im !! key_of sp = src !! key_of sp) ->
    w = Input -> 0 <= blocks_failed u < 18446744073709551616 ->
    hoare W (st d m' i h u t) (offset_step E (shifted a off) off c k)
      (fun c' s => faithful E src c' /\ exists u'' m'', blocks_failed u'' = u64 (blocks_failed u + fl k) /\
         (forall k2, m'' !! k2 = if decide (k2 = k) then upd k else m' !! k2) /\ st d m'' i h u'' t s) never.
  Proof.
    intros Hc Hk Hx Hb Ht Hread Hw Hu. unfold offset_step.
    eapply h_bind; [apply h_inc_done|]. intros ?. cbn beta.
    apply h_ex. intros u1. eapply h_weaken with (P := fun s => blocks_failed u1 = blocks_failed u /\ st d m' i h u1 t s); [|tauto].
    apply h_pre. intros Hu1. rewrite <-Hu1 in Hu |- *.
    eapply h_bind; [by apply h_get_any with (im := im) (w := Main); [|right]|]. intros r. cbn beta.
    apply h_pre. cbn [seen]. rewrite Hk, Hx. intros ->. cbn [okD].
    assert (forall r, load_res E (Some x) = r -> match r with Some (Ok _) => False | _ => True end -> m' !! k = upd k) as Hsame.
    { intros r Hl Hr'. unfold CopyRun.upd. rewrite Hk, Hx, Hl. by destruct r as [[?|]|]. }
    assert (fl k = match load_res E (Some x) with Some (Err _) => 1 | _ => 0 end) as Hfl by (unfold CopyRun.fl; by rewrite Hx).
    destruct (load_res E (Some x)) as [[dst|e]|] eqn:El.
    - destruct (copied_part E HE Hfull main src a off Ha Ho Hroom Hmain Hsrc k x dst Hb Ht Hx El)
        as (part & dd & b & b' & Ep & Hne & Hin & Eb & Ed & Eu & _).
      unfold load_res in El. destruct (Commands.keep (is_valid_generated E) (Some x)) as [x'|] eqn:Ek; [|done].
      injection El as El. rewrite El.
      eapply h_lift_bind with (a := part).
      { pose proof (whole_ok (from_block_key k) (proj1 Hb)) as Hwh. unfold whole_area in Hwh.
        unfold part_of, whole_area in Ep. rewrite Hwh in Ep |- *. exact Ep. }
      rewrite <-Hw. apply h_paste with (x := x) (b := b) (dd := dd);
        [done|congruence|done|by destruct Hb|done|done| |done|done|done|done|done].
      intros p sp. rewrite Hw. apply Hread.
    - unfold load_res in El. destruct (Commands.keep (is_valid_generated E) (Some x)) as [x'|] eqn:Ek; [|done].
      injection El as El. rewrite El. apply h_fail; [done| |done]. exact (Hsame _ eq_refl Logic.I).
    - unfold load_res in El. destruct (Commands.keep (is_valid_generated E) (Some x)) as [x'|] eqn:Ek; [done|].
      apply h_leave; [done| |done|done]. exact (Hsame _ eq_refl Logic.I).
  Qed.

  (** clone *)
  Lemma h_clone_step k m' u c x a' : a = Some a' -> faithful E src c -> m' !! k = main !! k -> main !! k = Some x ->
    block_at k (from_block_key k) -> target a off (from_block_key k) -> src = main ->
    (forall p sp, node_in_block (from_block_key k) p -> node_in_block sp (minus p off) ->
       is_valid_block_pos sp = true -> m' !! key_of sp = src !! key_of sp) ->
    w = Main -> 0 <= blocks_failed u < 18446744073709551616 ->
    hoare W (st d m' i h u t) (clone_step E (area_add a' off) off c k)
      (fun c' s => faithful E src c' /\ exists u'' m'', blocks_failed u'' = u64 (blocks_failed u + fl k) /\
         (forall k2, m'' !! k2 = if decide (k2 = k) then upd k else m' !! k2) /\ st d m'' i h u'' t s) never.
  Proof.
    intros Ea Hc Hk Hx Hb Ht Hsm Hread Hw Hu. unfold clone_step.
    eapply h_bind; [apply h_inc_done|]. intros ?. cbn beta.
    apply h_ex. intros u1. eapply h_weaken with (P := fun s => blocks_failed u1 = blocks_failed u /\ st d m' i h u1 t s); [|tauto].
    apply h_pre. intros Hu1. rewrite <-Hu1 in Hu |- *.
    eapply h_bind; [apply h_get_cached with (m0 := src) (im := im); [done|by right|done|]|].
    { simpl. by rewrite Hsm. }
    intros [r c2]. cbn beta. cbn [fst snd]. apply h_pre. intros [-> Hc2].
    assert (src !! k = Some x) as Hx' by by rewrite Hsm.
    rewrite Hx'.
    assert (forall r, load_res E (Some x) = r -> match r with Some (Ok _) => False | _ => True end -> m' !! k = upd k) as Hsame.
    { intros r Hl Hr'. unfold CopyRun.upd. rewrite Hk, Hx, Hl. by destruct r as [[?|]|]. }
    assert (fl k = match load_res E (Some x) with Some (Err _) => 1 | _ => 0 end) as Hfl by (unfold CopyRun.fl; by rewrite Hx).
    destruct (load_res E (Some x)) as [[dst|e]|] eqn:El.
    - destruct (copied_part E HE Hfull main src a off Ha Ho Hroom Hmain Hsrc k x dst Hb Ht Hx El)
        as (part & dd & b & b' & Ep & Hne & Hin & Eb & Ed & Eu & _).
      eapply h_lift_bind with (a := part).
      { unfold part_of, shifted in Ep. rewrite Ea in Ep. exact Ep. }
      rewrite <-Hw. apply h_paste with (x := x) (b := b) (dd := dd);
        [done|congruence|done|by destruct Hb|done|done| |done|done|done|done|done].
      intros p sp. rewrite Hw. apply Hread.
    - apply h_fail; [done| |done]. exact (Hsame _ eq_refl Logic.I).
    - apply h_leave; [done| |done|done]. exact (Hsame _ eq_refl Logic.I).
  Qed.
End step.

(** ** From the loops to the specification *)
Section result.
  Context (E : ext) (HE : ext_ok E) (Hfull : full_writes E) (W : world).
  Context (main src : mapdata) (a : option area) (off : vec3).
  Context (Ha : match a with Some a => nonempty a /\ area_within 31000 a | None => True end).
  Context (Ho : within 62000 off).
  Context {nd ns : Z} (Hroom : room off nd ns) (Hmain : blocks E main (sound nd)) (Hsrc : blocks E src (sound ns)).
  Context (Hkeys : keys_ok main).

  Notation upd := (upd E main src a off).
  Notation fl := (fl E main).

  Lemma key_at k x : main !! k = Some x -> block_at k (from_block_key k).
  Proof. intros Hk. destruct (Hkeys k ltac:(by eexists)) as [bp Hb]. by destruct (block_at_key k bp Hb) as [_ ->]. Qed.

  Lemma query_keys_iff rs : row_list W main rs ->
    let keys := (sel_rows [] (shifted a off) false true rs).*1 in
    NoDup keys /\ Z.of_nat (length keys) <= 68719476736 /\
    forall k, k ∈ keys <-> exists x, main !! k = Some x /\ target a off (from_block_key k).
  Proof.
    intros [Hp _] keys. unfold keys, sel_rows. split; [|split].
    - apply NoDup_fst_filter. rewrite Hp. apply NoDup_fst_map_to_list.
    - rewrite fmap_length. pose proof (map_size_bound main Hkeys) as Hm. rewrite <-Hp in Hm.
      match goal with |- Z.of_nat (length (filter ?P rs)) <= _ => pose proof (filter_length P rs) end. lia.
    - intros k. rewrite elem_of_list_fmap. split.
      + intros ([k' x] & -> & [Hs Hin]%elem_of_list_filter). rewrite Hp in Hin. apply elem_of_map_to_list in Hin.
        exists x. split; [done|]. simpl in Hs |- *.
        apply (shifted_target a off Ha Ho). eapply row_sel_iff; [by eapply key_at|by apply shifted_ok|exact Hs].
      + intros (x & Hx & Ht). exists (k, x). split; [done|]. apply elem_of_list_filter. split.
        * simpl. apply (row_sel_iff [] (shifted a off) false true k (from_block_key k) x); [by eapply key_at|by apply shifted_ok|].
          split; [by apply shifted_target|]. by left.
        * rewrite Hp. by apply elem_of_map_to_list.
  Qed.

  Lemma copied_all keys main' n : NoDup keys -> Z.of_nat (length keys) <= 68719476736 ->
    (forall k, k ∈ keys <-> exists x, main !! k = Some x /\ target a off (from_block_key k)) ->
    so_far main upd keys main' -> n = u64 (0 + zsum fl keys) ->
    refused E main a off n /\
    effect E main main' (fun bp b => not_generated b \/ ~ target a off bp)
      (fun bp b b' => not_generated b \/ pasted E src a off bp b b').
  Proof.
    intros Hn Hlen Hk Hm' ->. split.
    - exists (filter (fun k => fl k = 1) keys). split; [by apply NoDup_filter|]. split.
      + assert (forall k, fl k = 0 \/ fl k = 1) as Hfl.
        { intros k. unfold CopyRun.fl. destruct (load_res _ _) as [[?|]|]; auto. }
        rewrite <-zsum_count.
        assert (zsum (fun x => if decide (fl x = 1) then 1 else 0) keys = zsum fl keys) as ->.
        { apply zsum_ext. intros k _. destruct (Hfl k) as [->| ->]; done. }
        apply u64_id.
        pose proof (zsum_bounds fl keys 0 1 ltac:(lia) ltac:(lia) ltac:(intros k _; destruct (Hfl k); lia)). lia.
      + intros k. rewrite elem_of_list_filter, Hk. split.
        * intros [Hf (x & Hx & Ht)]. unfold CopyRun.fl in Hf. rewrite Hx in Hf.
          exists (from_block_key k), x. unfold load_res, Commands.keep in Hf.
          destruct (is_valid_generated E x) eqn:Eg; [|done]. simpl in Hf. destruct (deserialize E x) as [|e]; [done|].
          exists e. split; [by eapply key_at|]. split; [done|]. split; [done|]. split; [by apply claims_iff|done].
        * intros (bp & x & e & Hb & Hx & Ht & Hg & Hd).
          destruct (block_at_key k bp Hb) as [_ Hbp]. split; [|exists x; by rewrite Hbp].
          unfold CopyRun.fl, load_res, Commands.keep. apply claims_iff in Hg. rewrite Hx, Hg. simpl. by rewrite Hd.
    - split.
      + intros k Hnone. rewrite Hm'. destruct (decide (k ∈ keys)) as [Hin|]; [|done].
        apply Hk in Hin as (x & Hx & _). congruence.
      + intros k bp x Hb Hx. destruct (block_at_key k bp Hb) as [Hr Hbp].
        assert (forall b, deserialize E x = Ok b -> not_generated b -> load_res E (Some x) = None) as Hng.
        { intros b Hd Hg. unfold load_res, Commands.keep. destruct (is_valid_generated E x) eqn:Eg; [|done].
          apply claims_iff in Eg. by apply (claims_flags E x b HE Hd) in Eg. }
        destruct (decide (k ∈ keys)) as [Hin|Hin].
        * pose proof Hin as Hin'. apply Hk in Hin' as (x' & Hx' & Ht). assert (x' = x) as -> by congruence.
          pose proof (Hm' k) as Hmk. rewrite decide_True in Hmk by done.
          destruct (deserialize E x) as [b|e] eqn:Ed.
          -- destruct (load_res E (Some x)) as [[dst|]|] eqn:El.
             ++ pose proof El as El'. apply load_res_ok in El' as (x2 & [= <-] & Hd2 & Hg); [|done].
                assert (dst = b) as -> by congruence.
                destruct (copied_part E HE Hfull main src a off Ha Ho Hroom Hmain Hsrc k x b ltac:(by rewrite Hbp) Ht Hx El)
                  as (part & d & b1 & b' & _ & _ & _ & _ & _ & Hu & Hd' & Hcan & Hp).
                exists d. rewrite Hmk. split; [done|]. split.
                { intros [?|Hnt]; [done|]. by rewrite Hbp in Ht. }
                exists b'. split; [done|]. split; [by right|]. right. by rewrite Hbp in Hp.
             ++ exfalso. unfold load_res, Commands.keep in El. destruct (is_valid_generated E x); [|done].
                simpl in El. rewrite Ed in El. done.
             ++ exists x. rewrite Hmk. unfold CopyRun.upd. rewrite Hx, El. split; [done|]. split; [done|].
                exists b. split; [done|]. assert (not_generated b) as Hng'; [|split; [by left; left|by left]]. unfold load_res, Commands.keep in El.
                destruct (is_valid_generated E x) eqn:Eg; [done|]. apply claims_false in Eg.
                destruct (decide (not_generated b)); [done|]. exfalso. apply Eg. by apply (claims_flags E x b HE Ed).
          -- exists x. rewrite Hmk. split; [|done]. unfold CopyRun.upd. rewrite Hx.
             unfold load_res, Commands.keep. destruct (is_valid_generated E x); [|done]. simpl. by rewrite Ed.
        * pose proof (Hm' k) as Hmk. rewrite decide_False, Hx in Hmk by done. exists x. split; [done|].
          destruct (deserialize E x) as [b|e] eqn:Ed; [|done]. split; [done|]. exists b. split; [done|].
          destruct (decide (not_generated b)) as [|Hg]; [split; [by left; left|by left]|].
          assert (~ target a off bp) as Hnt. { intros Ht. apply Hin, Hk. exists x. by rewrite Hbp. }
          split; [by left; right|right].
          destruct (Hmain k x b Hx Ed) as [Hnm _ Hmt _].
          split; [by apply same_rest_refl|]. split; [by apply tight_refl|]. intros i Hi p. split; [|done].
          intros sb j Hsel _. destruct Hnt. exists (abs_pos bp i). split; [|done].
          apply block_of_iff. symmetry. by apply abs_pos_block.
  Qed.
End result.

Lemma h_has W d m i h u t :
  hoare W (st d m i h u t) (gets has_idb) (fun r s => r = h /\ st d m i h u t s) never.
Proof. intros s Hs. split; [|done]. by destruct Hs as (_ & _ & ? & _). Qed.

(** ** Whole runs *)
Section run.
  Context (E : ext) (W : world) (g : args) (main input : mapdata) (pos : Z -> vec3).
  Context (HS : setting E W g main pos).

  Lemma args_area : match aarea g with Some a => nonempty a /\ area_within 31000 a | None => True end.
  Proof.
    destruct HS as [_ _ _ _ [Hn _] (_ & Ha & _) _ _]. destruct (aarea g) as [a|]; [|done].
    split; [by apply Hn|]. by apply Ha.
  Qed.

  Lemma clone_run a off : acmd g = CClone -> aarea g = Some a -> offset g = Some off ->
    roomy E g main main -> copies E W g main input main (Some a) off.
  Proof.
    intros Hcmd Ea Eo (n & ns & Hroom & Hmain & Hmain'). rewrite Eo in Hroom. cbn [default] in Hroom. pose proof args_area as Haa. rewrite Ea in Haa.
    pose proof (pos_keys E W g main pos HS) as Hkeys.
    destruct HS as [HE Hfull HW HO Hsup Hleg Hrdy _].
    assert (within 62000 off) as Ho by (destruct Hleg as (_ & _ & H & _); by apply H).
    destruct (thread_run W HW E g main input (fun u m' l => l = [] /\ exists keys, NoDup keys /\
      Z.of_nat (length keys) <= 68719476736 /\
      (forall k, k ∈ keys <-> exists x, main !! k = Some x /\ target (Some a) off (from_block_key k)) /\
      so_far main (upd E main main (Some a) off) keys m' /\ blocks_failed u = u64 (0 + zsum (fl E main) keys)))
      as (u & m' & l & (-> & keys & Hnd & Hlen & Hk & Hm' & Hu) & Hrun); [done..| |].
    2: { exists m', (blocks_failed u). split; [exact Hrun|].
         exact (copied_all E HE Hfull main main (Some a) off Haa Ho Hroom Hmain Hmain' Hkeys keys m' _ Hnd Hlen Hk Hm' Hu). }
    intros t. unfold cmd_func. rewrite Hcmd. unfold clone. rewrite Ea, Eo. cbn [unwrapM unwrap lift].
    apply h_ret_bind. apply h_ret_bind. cbv zeta.
    eapply h_bind; [apply h_query with (im := main); [done|done|by right]|]. intros keys. cbn beta.
    cbn [seen].
    eapply h_weaken with (P := fun s => (exists rs, row_list W main rs /\
      keys = (sel_rows [] (Some (area_add a off)) false true rs).*1) /\
      st main main (idb_opened g input) (has_input g) (with_total status_new (Z.of_nat (length keys)) Ignore) t s); [|tauto].
    apply h_pre. intros (rs & Hrs & Ekeys).
    destruct (query_keys_iff W main (Some a) off Haa Ho Hkeys rs Hrs) as (Hnd & Hlen & Hk).
    cbn [shifted] in Hnd, Hlen, Hk. rewrite <-Ekeys in Hnd, Hlen, Hk.
    destruct (sort_keys_ok off keys) as (l & El & Hperm & Hord).
    { intros k (x & Hx & _)%Hk. apply Hkeys. by eexists. }
    eapply h_lift_bind; [exact El|].
    assert (NoDup l) as Hndl by by rewrite Hperm.
    eapply h_bind; [apply h_set_state|]. intros ?. cbn beta.
    eapply h_bind.
    { apply h_key_loop with (I := fun _ c => faithful E main c) (upd := upd E main main (Some a) off) (fl := fl E main);
        [done|apply faithful_new|simpl; lia|].
      intros ks k rest c m' u' El' Hkn Hc Hsf Hu'.
      assert (k ∈ keys) as Hin by (rewrite <-Hperm, El'; set_solver).
      apply Hk in Hin as (x & Hx & Ht).
      pose proof (key_at main Hkeys k x Hx) as Hb.
      eapply h_clone_step with (im := main) (w := Main) (x := x); try done.
      - by right.
      - rewrite Hsf. by rewrite decide_False.
      - intros p sp Hp Hps Hv. rewrite Hsf. rewrite decide_False; [done|]. intros Hin.
        apply valid_block_pos in Hv. apply within_key in Hv.
        destruct (source_later off p (from_block_key k) sp Hp Hps) as [Hle Heq]; [by destruct Hb|done|].
        destruct Hb as [Hbr Hbk]. change (k = key_of (from_block_key k)) in Hbk. rewrite <-Hbk in Hle, Heq.
        pose proof (Hord ks k rest El' _ Hin) as Hle2.
        apply Hkn. rewrite Hbk, Heq by lia. done. }
    intros ?. cbn beta. apply h_ex. intros u. apply h_ex. intros m'. apply h_pre. intros Hu. apply h_pre. intros Hsf.
    eapply h_post; [apply h_set_state|]. intros ? s Hs. eexists _, m', []. rewrite app_nil_r. split; [|exact Hs].
    split; [done|]. exists l. split; [done|]. split; [by rewrite Hperm|]. split; [by intros k; rewrite Hperm|].
    split; [done|]. simpl in Hu |- *. rewrite Hu. done.
  Qed.

  Lemma offset_run off : acmd g = COverlay -> offset g = Some off -> off <> V3 0 0 0 -> roomy E g main input ->
    copies E W g main input input (aarea g) off.
  Proof.
    intros Hcmd Eo Hnz (n & ns & Hroom & Hmain & Hinp). rewrite Eo in Hroom. cbn [default] in Hroom. pose proof args_area as Haa.
    pose proof (pos_keys E W g main pos HS) as Hkeys.
    destruct HS as [HE Hfull HW HO Hsup Hleg Hrdy _].
    assert (within 62000 off) as Ho by (destruct Hleg as (_ & _ & H & _); by apply H).
    assert (invert g = false) as Hinv.
    { destruct Hleg as (_ & _ & _ & _ & H). rewrite Hcmd in H. destruct H as [H _].
      destruct (invert g); [|done]. by specialize (H eq_refl off Eo). }
    assert (is_Some (input_map_path g)) as Hip by (destruct Hsup as [_ H]; by rewrite Hcmd in H).
    assert (has_input g = true /\ reading (idb_opened g input) input) as [Hhas Hread].
    { unfold has_input, idb_opened, reading. by destruct Hip as [? ->]. }
    destruct (thread_run W HW E g main input (fun u m' l => l = [] /\ exists keys, NoDup keys /\
      Z.of_nat (length keys) <= 68719476736 /\
      (forall k, k ∈ keys <-> exists x, main !! k = Some x /\ target (aarea g) off (from_block_key k)) /\
      so_far main (upd E main input (aarea g) off) keys m' /\ blocks_failed u = u64 (0 + zsum (fl E main) keys)))
      as (u & m' & l & (-> & keys & Hnd & Hlen & Hk & Hm' & Hu) & Hrun); [done..| |].
    2: { exists m', (blocks_failed u). split; [exact Hrun|].
         exact (copied_all E HE Hfull main input (aarea g) off Haa Ho Hroom Hmain Hinp Hkeys keys m' _ Hnd Hlen Hk Hm' Hu). }
    intros t. unfold cmd_func. rewrite Hcmd. unfold overlay. rewrite Eo. cbn [default]. 
    change (default (V3 0 0 0) (Some off)) with off. rewrite bool_decide_false by done.
    unfold overlay_with_offset. rewrite Eo. cbn [unwrapM unwrap lift]. apply h_ret_bind. cbv zeta.
    eapply h_bind; [apply h_has|]. intros hh. cbn beta. apply h_pre. intros ->. rewrite Hhas. apply h_ret_bind.
    replace ((fun a => area_add a off) <$> aarea g) with (shifted (aarea g) off) by (by destruct (aarea g)).
    rewrite Hinv.
    eapply h_bind; [apply h_query with (im := input); [done|done|by right]|]. intros keys. cbn beta.
    cbn [seen].
    eapply h_weaken with (P := fun s => (exists rs, row_list W main rs /\
      keys = (sel_rows [] (shifted (aarea g) off) false true rs).*1) /\
      st main main (idb_opened g input) true (with_total status_new (Z.of_nat (length keys)) Ignore) t s); [|tauto].
    apply h_pre. intros (rs & Hrs & Ekeys).
    destruct (query_keys_iff W main (aarea g) off Haa Ho Hkeys rs Hrs) as (Hnd & Hlen & Hk).
    rewrite <-Ekeys in Hnd, Hlen, Hk.
    eapply h_bind; [apply h_set_state|]. intros ?. cbn beta.
    eapply h_bind.
    { apply h_key_loop with (I := fun _ c => faithful E input c) (upd := upd E main input (aarea g) off) (fl := fl E main);
        [done|apply faithful_new|simpl; lia|].
      intros ks k rest c m' u' El' Hkn Hc Hsf Hu'.
      assert (k ∈ keys) as Hin by (rewrite El'; set_solver).
      apply Hk in Hin as (x & Hx & Ht).
      pose proof (key_at main Hkeys k x Hx) as Hb.
      eapply h_offset_step with (im := input) (w := Input) (x := x); try done.
      - by left.
      - rewrite Hsf. by rewrite decide_False. }
    intros ?. cbn beta. apply h_ex. intros u. apply h_ex. intros m'. apply h_pre. intros Hu. apply h_pre. intros Hsf.
    eapply h_post; [apply h_set_state|]. intros ? s Hs. eexists _, m', []. rewrite app_nil_r. split; [|exact Hs].
    split; [done|]. exists keys. split; [done|]. split; [done|]. split; [done|].
    split; [done|]. simpl in Hu |- *. rewrite Hu. done.
  Qed.
End run.
